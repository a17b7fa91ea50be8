(** GDBs and their dictionaries (C109-C113). *)
From Verif Require Import PyBase M_Data M_Flags M_Models M_Class M_Var M_Gdb M_GdbDict L_Base S_Var S_Gdb S_GdbDict L_Gdb P_Gdb L_GdbDict L_GdbLoad.

(** What the theorems ask of the things around GDBs: number [k] is shown as [js k] and
    this loads as [again k], without warning. *)
Definition numbers_reload (real_of : jv -> out bytes) (number_of whole_of : bytes -> out jv) (misfit : str -> bytes -> bool)
    (c : cls) (g : gdb) (js : nat -> jv) (again : nat -> bytes) : Prop :=
  forall k, (k < length (params c))%nat ->
    (if whole_at c k then whole_of else number_of) (number_at (g_head g) (shown_at c k)) = oret (js k) /\
    real_of (js k) = oret (again k) /\ length (again k) = 9%nat /\ misfit (nth k (params c) []) (again k) = false.
(** Equation [i] is shown as the text [txt i], under its own name, and the text loads as
    the tokens [retext q]. *)
Definition texts_reload (expr_of : geq -> out str) (load_expr : jv -> out bytes) (json_name : str -> str)
    (c : cls) (g : gdb) (txt : nat -> str) (retext : eqn -> bytes) : Prop :=
  (forall n, In n (equation_names c) -> json_name n = n) /\
  forall i q, nth_error (g_eqns g) i = Some q -> is_byte (x_flag q) /\
    expr_of (Geq (eqn_bytes q) (Some [nth (group_of c i) (g_styles g) 0]) (Some [color_at g (group_of c i)])) = oret (txt i) /\
    load_expr (JStr (txt i)) = oret (le16 (zlen (retext q)) ++ retext q) /\ zlen (retext q) < 65536.
(** A payload of the class: the right mode, and bytes where the dictionary looks. *)
Definition gdb_shown (c : cls) (g : gdb) : Prop :=
  gdb_ok c g /\ nth 3 (g_head g) 0 = mode_value c /\ is_byte (nth 4 (g_head g) 0) /\ is_byte (nth 5 (g_head g) 0) /\ is_byte (nth 6 (g_head g) 0) /\
  if colour c then exists t, g_tail g = Some t /\ named_rest (t_rest t) else g_tail g = None.
(** All styles and colours have names. *)
Definition names_fit (g : gdb) : Prop :=
  Forall named_style (g_styles g) /\ match g_tail g with Some t => Forall named_color (t_colors t) | None => True end.

Section Reload.
Variable real_of : jv -> out bytes.
Variable number_of whole_of : bytes -> out jv.
Variable misfit : str -> bytes -> bool.
Variable expr_of : geq -> out str.
Variable load_expr : jv -> out bytes.
Variable json_name : str -> str.
Variable other_attr : entry -> str -> jv -> option (out entry).

Lemma head_split c g : gdb_shown c g -> exists a b z f sq x T, g_head g = a :: b :: z :: mode_value c :: f :: sq :: x :: T /\
  f = nth 4 (g_head g) 0 /\ sq = nth 5 (g_head g) 0 /\ x = nth 6 (g_head g) 0.
Proof.
  intros ((p & s & r & _ & L & _) & M & _). destruct (g_head g) as [|a [|b [|z [|m [|f [|sq [|x T]]]]]]]; cbn [length] in L; try lia.
  cbn [nth] in M. subst m. now exists a, b, z, f, sq, x, T.
Qed.
Lemma params_length c p s r : shape c = Some (p, s, r) -> length (params c) = (6 + p)%nat.
Proof. destruct c; cbn [shape]; intros S; try discriminate S; injection S as <- <- <-; reflexivity. Qed.
Lemma text_facts c p s r g txt retext : shape c = Some (p, s, r) -> gdb_ok c g -> texts_reload expr_of load_expr json_name c g txt retext ->
  forall i, (i < s * r)%nat -> (is_byte (x_flag (eqn_at g i)) /\ expr_of (geq_at c g i) = oret (txt i) /\ json_name (eq_name c i) = eq_name c i) /\ eq_fine load_expr c g txt retext i.
Proof.
  intros S OK (J & T) i I. pose proof OK as (p' & s' & r' & S' & LH & LS & LE & _). rewrite S in S'. injection S' as <- <- <-.
  destruct (nth_error (g_eqns g) i) as [q|] eqn:N; [|apply nth_error_None in N; lia].
  assert (E : eqn_at g i = q) by (unfold eqn_at; apply nth_error_nth with (1 := N)). destruct (T i q N) as (B & X & Y & Z0).
  unfold eq_fine, geq_at, style_at, hue_at. rewrite E. repeat split; try assumption; try (now apply B).
  apply J. destruct (names_facts c p s r S) as [L _]. unfold eq_name. apply nth_In. lia.
Qed.
Lemma names_fit_at c p s r g : shape c = Some (p, s, r) -> gdb_ok c g -> names_fit g -> forall i, (i < s * r)%nat -> named_style (style_at c g i) /\ named_color (hue_at c g i).
Proof.
  intros S (p' & s' & r' & S' & LH & LS & LE & _ & TK) (F1 & F2) i I. rewrite S in S'. injection S' as <- <- <-.
  assert (G : (group_of c i < s)%nat) by (unfold group_of; rewrite S; apply Nat.div_lt_upper_bound; nia).
  unfold style_at, hue_at, color_at. split; [|destruct (g_tail g) as [t|]; [|unfold named_color; lia]].
  - rewrite Forall_forall in F1. apply F1, nth_In. lia.
  - rewrite Forall_forall in F2. apply F2, nth_In. destruct TK as (_ & -> & _). lia.
Qed.

(** The dictionary of a GDB. *)
Definition shown_dict (c : cls) (g : gdb) (js : nat -> jv) (txt : nat -> str) (fl : list jv) (ext kinds : list (str * jv)) (n : nat) : list (str * jv) :=
  gdb_json c fl (nth 6 (g_head g) 0) ext kinds js (map (fun i => (eq_name c i, eq_json c g txt i)) (seq 0 n))
    (match g_tail g with
     | Some t => match t_rest t with [grid; axes; line; border; asym] => [(s2l "global84CSettings", colour_json grid axes line border asym)] | _ => [] end
     | None => []
     end).
Lemma gdb_dict_ok e c p s r g js again txt retext : e_cls e = c -> shape c = Some (p, s, r) -> gdb_shown c g ->
  numbers_reload real_of number_of whole_of misfit c g js again -> texts_reload expr_of load_expr json_name c g txt retext ->
  exists fl ext kinds, formats fl 0 = Some (format_again (nth 4 (g_head g) 0)) /\ seq_items c (nth 5 (g_head g) 0) (nth 6 (g_head g) 0) ext kinds /\
  gdb_dict number_of whole_of expr_of json_name (st e (gdb_bytes g)) = oret (shown_dict c g js txt fl ext kinds (s * r)).
Proof.
  intros E S SH N T. pose proof SH as (OK & M & B4 & B5 & B6 & TL). destruct (head_split c g SH) as (a & b & z & f & sq & x & T0 & H & Hf & Hq & Hx).
  destruct (formats_again _ B4) as (fl & F1 & F2). destruct (seq_items_ex c _ _ B5 B6) as (ext & kinds & I). exists fl, ext, kinds. split; [exact F2|]. split; [exact I|].
  rewrite <- Hf, <- Hq, <- Hx in *.
  pose proof (mono_dict_ok number_of whole_of expr_of json_name e c p s r g a b z f sq x T0 fl js txt ext kinds H E S OK B6 F1) as MD.
  specialize (MD ltac:(intros k K; rewrite <- (params_length c p s r S) in K; apply (N k K))). specialize (MD ltac:(intros i Hi; apply (text_facts c p s r g txt retext S OK T i Hi))). specialize (MD I).
  unfold shown_dict. rewrite <- Hx. destruct (colour c) eqn:C.
  - destruct TL as (t & TL & (grid & axes & line & border & asym & R & NG & NA & NL & NB & BA)). rewrite TL, R.
    assert (CD : color_dict (st e (gdb_bytes g)) = oret [(s2l "global84CSettings", colour_json grid axes line border asym)]).
    { unfold gdb_bytes, tail_bytes. rewrite TL, R.
      match goal with |- color_dict (st e ?d) = _ => replace d with ((g_head g ++ g_styles g ++ concat (map eqn_bytes (g_eqns g)) ++ t_magic t ++ t_colors t) ++ [grid; axes; line; border; asym]) by (rewrite <- !app_assoc; reflexivity) end.
      apply color_dict_ok. exact BA. }
    unfold gdb_dict. rewrite st_cls, E. destruct c; try discriminate C; rewrite MD, obind_oret, CD, obind_oret; unfold gdb_json; rewrite <- !app_assoc, app_nil_l; reflexivity.
  - rewrite TL. unfold gdb_dict. rewrite st_cls, E. destruct c; cbn [shape colour] in S, C; try discriminate S; try discriminate C; exact MD.
Qed.

(** Loading the dictionary up to the equations. *)
Lemma loads_to_equations e c p s r g js again txt retext fl ext kinds : e_cls e = c -> shape c = Some (p, s, r) -> gdb_shown c g ->
  numbers_reload real_of number_of whole_of misfit c g js again ->
  formats fl 0 = Some (format_again (nth 4 (g_head g) 0)) -> seq_items c (nth 5 (g_head g) 0) (nth 6 (g_head g) 0) ext kinds ->
  let D := shown_dict c g js txt fl ext kinds (s * r) in
  let B := blank c (mode_value c) (format_again (nth 4 (g_head g) 0)) (nth 6 (g_head g) 0 mod 2) (map again (seq 0 (6 + p))) in
  texts_reload expr_of load_expr json_name c g txt retext -> gdb_ok c B /\
  gdb_load_dict real_of misfit load_expr other_attr D e =
  do e := load_equations load_expr (map (fun i => (eq_name c i, eq_json c g txt i)) (seq 0 (s * r))) (st e (gdb_bytes B)) in
  let e := match jfind (s2l "global84CSettings") D with Some _ => with_cls e KGDB | None => e end in
  do e := (if issubclass (e_cls e) KGDB then coerce_gdb e else coerce_mono_gdb e) in
  load_special D e.
Proof.
  intros E S SH N F2 I D B T. pose proof SH as (OK & M & B4 & B5 & B6 & TL). split.
  { apply (blank_ok c p s r); [exact S| |rewrite map_length, seq_length; reflexivity]. unfold nines. apply Forall_forall. intros x Hx. apply in_map_iff in Hx as (k & <- & Hk). apply in_seq in Hk.
    destruct (N k ltac:(rewrite (params_length c p s r S); lia)) as (_ & _ & L & _). exact L. }
  unfold D, shown_dict. match goal with |- context [gdb_json _ _ _ _ _ _ ?q ?gl] => set (Q := q); set (G := gl) end.
  destruct (jfind_json c fl (nth 6 (g_head g) 0) ext kinds js Q G c _ I) as (J1 & J2 & J3 & J4 & J5 & J6 & J7 & J8).
  destruct (mode_json_ok c p s r S) as (_ & MJ).
  assert (G0 : jfind (s2l "seqSettings") G = None).
  { unfold G. destruct (g_tail g) as [t|]; [|reflexivity]. destruct (t_rest t) as [|? [|? [|? [|? [|? [|? ?]]]]]]; reflexivity. }
  apply (load_start real_of misfit load_expr other_attr e c p s r _ (mode_json c) fl _ ((s2l "showExpr", JBool (negb (Z.testbit (nth 6 (g_head g) 0) 0))) :: ext) (nth 6 (g_head g) 0) [(s2l "settings", JObj (map (fun k => (name_at c k, js k)) (positions c))); (s2l "equations", JObj Q)] Q js again E S B6 J1 MJ J2 F2 J3); try reflexivity; try assumption.
  - destruct (is_seq c) eqn:SQ; [left; reflexivity|right]. rewrite (J7 G0). unfold seq_items in I. rewrite SQ in I. destruct I as [-> ->]. split; reflexivity.
  - intros k K. apply N. rewrite (params_length c p s r S). exact K.
Qed.
Lemma mono_first c p s r g i : shape c = Some (p, s, r) -> (i < s)%nat -> (i * r < s * r)%nat /\ hue_at c g (i * r) = color_at g i.
Proof.
  intros S I. assert (R : (0 < r)%nat) by (destruct c; cbn [shape] in S; try discriminate S; injection S as <- <- <-; lia). split; [nia|].
  unfold hue_at, group_of. rewrite S, Nat.div_mul by lia. reflexivity.
Qed.

(** C111: without a colour for each equation the dictionary is shown, but does not load. *)
Theorem C111_uncoloured e e0 g js again txt retext : let c := e_cls e in
  gdb_shown c g -> names_fit g -> e_data e = Buf true (gdb_bytes g) -> e_cls e0 = c ->
  numbers_reload real_of number_of whole_of misfit c g js again -> texts_reload expr_of load_expr json_name c g txt retext ->
  (exists i, (i < length (g_styles g))%nat /\ color_at g i = 0) ->
  exists D, gdb_dict number_of whole_of expr_of json_name e = oret D /\ gdb_load_dict real_of misfit load_expr other_attr D e0 = oerr KeyError.
Proof.
  intros c SH NF ED E0 N T (i & I & Z0). pose proof SH as (OK & _). pose proof OK as (p & s & r & S & LH & LS & LE & _).
  destruct (gdb_dict_ok e c p s r g js again txt retext eq_refl S SH N T) as (fl & ext & kinds & F2 & SI & D).
  exists (shown_dict c g js txt fl ext kinds (s * r)). split; [replace e with (st e (gdb_bytes g)) by (destruct e; cbn in ED; subst; reflexivity); exact D|].
  destruct (loads_to_equations e0 c p s r g js again txt retext fl ext kinds E0 S SH N F2 SI T) as (OB & L). rewrite L. destruct (mono_first c p s r g i S ltac:(lia)) as [I1 I2].
  rewrite (load_equations_mono load_expr e0 c p s r g txt retext E0 S); [reflexivity|exact OB| |].
  - apply Forall_forall. intros k K. apply in_seq in K. split; [lia|]. split; [apply (text_facts c p s r g txt retext S OK T k); lia|]. apply (names_fit_at c p s r g S OK NF k). lia.
  - apply Exists_exists. exists (i * r)%nat. split; [apply in_seq; lia|congruence].
Qed.
Theorem C111_mono e e0 g js again txt retext : let c := e_cls e in
  gdb_shown c g -> colour c = false -> names_fit g -> e_data e = Buf true (gdb_bytes g) -> e_cls e0 = c ->
  numbers_reload real_of number_of whole_of misfit c g js again -> texts_reload expr_of load_expr json_name c g txt retext ->
  exists D, gdb_dict number_of whole_of expr_of json_name e = oret D /\ gdb_load_dict real_of misfit load_expr other_attr D e0 = oerr KeyError.
Proof.
  intros c SH C NF ED E0 N T. apply (C111_uncoloured e e0 g js again txt retext SH NF ED E0 N T). pose proof SH as ((p & s & r & S & _ & LS & _) & _ & _ & _ & _ & TL). fold c in TL. rewrite C in TL.
  exists 0%nat. split; [|unfold color_at; rewrite TL; reflexivity]. rewrite LS. fold c in S. destruct c; cbn [shape] in S; try discriminate S; injection S as <- <- <-; lia.
Qed.

Lemma loads_coloured e0 c p s r g js again txt retext fl ext kinds : e_cls e0 = c -> shape c = Some (p, s, r) -> gdb_shown c g -> names_fit g -> colour c = true ->
  (forall i, (i < length (g_styles g))%nat -> color_at g i <> 0) ->
  numbers_reload real_of number_of whole_of misfit c g js again -> texts_reload expr_of load_expr json_name c g txt retext ->
  formats fl 0 = Some (format_again (nth 4 (g_head g) 0)) -> seq_items c (nth 5 (g_head g) 0) (nth 6 (g_head g) 0) ext kinds ->
  let D := shown_dict c g js txt fl ext kinds (s * r) in
  let B := blank c (mode_value c) (format_again (nth 4 (g_head g) 0)) (nth 6 (g_head g) 0 mod 2) (map again (seq 0 (6 + p))) in
  let G := Gdb (g_head B) (g_styles g) (map (new_eqn retext) (g_eqns g)) (Some (Tail [56; 52; 67] (match g_tail g with Some t => t_colors t | None => [] end) (zeros 5))) in
  gdb_ok c G /\ gdb_load_dict real_of misfit load_expr other_attr D e0 = load_special D (st e0 (gdb_bytes G)).
Proof.
  intros E0 S SH NF C H N T F2 SI D B G. pose proof SH as (OK & _ & _ & _ & _ & TL). rewrite C in TL. destruct TL as (t & TL & NR).
  destruct (loads_to_equations e0 c p s r g js again txt retext fl ext kinds E0 S SH N F2 SI T) as (OB & L). fold B in OB. fold D in L. fold B in L.
  pose proof OK as (p' & s' & r' & S' & LH & LS & LE & FE & TK). rewrite S in S'. injection S' as <- <- <-. rewrite TL in TK. destruct TK as (LM & LC & LR).
  assert (OG : gdb_ok c G).
  { destruct OB as (p' & s' & r' & S' & LB & _). rewrite S in S'. injection S' as <- <- <-. exists p, s, r. unfold G. cbn [g_head g_styles g_eqns g_tail t_magic t_colors t_rest]. rewrite map_length, TL.
    split; [exact S|]. split; [exact LB|]. split; [exact LS|]. split; [exact LE|]. split; [|repeat split; assumption || reflexivity].
    apply Forall_forall. intros q Q. apply in_map_iff in Q as (q0 & <- & Q). apply In_nth_error in Q as (i & Q). destruct T as (_ & T). destruct (T i q0 Q) as (_ & _ & _ & LX). exact LX. }
  split; [exact OG|]. rewrite L.
  rewrite (load_equations_ok load_expr e0 c p s r g txt retext E0 S (seq 0 (s * r)) B OB).
  2:{ apply Forall_forall. intros k K. apply in_seq in K. split; [lia|]. split; [apply (text_facts c p s r g txt retext S OK T k); lia|]. destruct (names_fit_at c p s r g S OK NF k ltac:(lia)) as [A1 A2]. split; [exact A1|]. split; [exact A2|].
      unfold hue_at. apply H. rewrite LS. unfold group_of. rewrite S. apply Nat.div_lt_upper_bound; nia. }
  rewrite obind_oret. unfold B at 1. rewrite (assign_all_blank c p s r retext g _ _ _ _ S OK ltac:(intros _; rewrite TL; discriminate)). rewrite C. fold B. fold G.
  assert (J : exists j, jfind (s2l "global84CSettings") D = Some j).
  { unfold D, shown_dict. match goal with |- context [gdb_json _ _ _ _ _ _ ?q ?gl] => destruct (jfind_json c fl (nth 6 (g_head g) 0) ext kinds js q gl c _ SI) as (_ & _ & _ & _ & _ & -> & _) end.
    rewrite TL. destruct NR as (? & ? & ? & ? & ? & -> & _). eexists. reflexivity. }
  destruct J as (j & ->). cbv zeta.
  assert (HD : exists a b z rest, gdb_bytes G = a :: b :: z :: mode_value c :: rest).
  { unfold gdb_bytes, G, B, blank. rewrite S. cbn [g_head]. unfold le16. cbn [le_bytes app]. do 4 eexists. reflexivity. }
  destruct HD as (a & b & z & rest & HD). rewrite HD. change (e_cls (with_cls (st e0 (a :: b :: z :: mode_value c :: rest)) KGDB)) with KGDB. change (issubclass KGDB KGDB) with true. cbv iota.
  rewrite (coerce_colour e0 c a b z rest C), obind_oret, cls_st, (cls_same e0 c E0). reflexivity.
Qed.

Lemma special_seq e d D : e_cls e = KSeq -> load_special D (st e d) = do e := load_sequence D (st e d) in load_colors D e.
Proof. intros E. unfold load_special. rewrite st_cls, E. reflexivity. Qed.
Lemma special_colour e c g D : e_cls e = c -> colour c = true -> is_seq c = false -> gdb_ok c g -> load_special D (st e (gdb_bytes g)) = load_colors D (st e (gdb_bytes g)).
Proof.
  intros E C SQ OK. unfold load_special. rewrite st_cls, E. destruct c; try discriminate C; try discriminate SQ; try reflexivity.
  rewrite (pair_checks_quiet e KParam g E eq_refl OK), obind_oret. reflexivity.
Qed.
(** C110: a colour GDB of any mode, all equations coloured, comes back as stated. *)
Theorem C110_reload e e0 g js again txt retext : let c := e_cls e in
  gdb_shown c g -> colour c = true -> names_fit g -> (forall i, (i < length (g_styles g))%nat -> color_at g i <> 0) ->
  (is_seq c = true -> named_kind (nth 5 (g_head g) 0) = false) ->
  e_data e = Buf true (gdb_bytes g) -> e_cls e0 = c ->
  numbers_reload real_of number_of whole_of misfit c g js again -> texts_reload expr_of load_expr json_name c g txt retext ->
  exists D, gdb_dict number_of whole_of expr_of json_name e = oret D /\
    gdb_load_dict real_of misfit load_expr other_attr D e0 = oret (with_data e0 (Buf true (gdb_bytes (gdb_again c again retext g)))).
Proof.
  intros c SH C NF H NK ED E0 N T. pose proof SH as (OK & _ & B4 & B5 & B6 & TL). fold c in TL. rewrite C in TL. destruct TL as (t & TL & NR). pose proof OK as (p & s & r & S & LH & LS & LE & FE & TK). rewrite TL in TK. destruct TK as (LM & LC & LR).
  destruct (gdb_dict_ok e c p s r g js again txt retext eq_refl S SH N T) as (fl & ext & kinds & F2 & SI & D).
  exists (shown_dict c g js txt fl ext kinds (s * r)). split; [replace e with (st e (gdb_bytes g)) by (destruct e; cbn in ED; subst; reflexivity); exact D|].
  destruct (loads_coloured e0 c p s r g js again txt retext fl ext kinds E0 S SH NF C H N T F2 SI) as (OG & ->). fold (st e0 (gdb_bytes (gdb_again c again retext g))).
  destruct NR as (grid & axes & line & border & asym & R & NG & NA & NL & NB & BA).
  set (DD := shown_dict c g js txt fl ext kinds (s * r)).
  assert (JJ : jfind (s2l "global84CSettings") DD = Some (colour_json grid axes line border asym) /\ jfind (s2l "extSettings") DD = Some (JObj ((s2l "showExpr", JBool (negb (Z.testbit (nth 6 (g_head g) 0) 0))) :: ext)) /\ jfind (s2l "seqSettings") DD = jfind (s2l "seqSettings") kinds).
  { unfold DD, shown_dict. match goal with |- context [gdb_json _ _ _ _ _ _ ?q ?gl] => destruct (jfind_json c fl (nth 6 (g_head g) 0) ext kinds js q gl c _ SI) as (_ & _ & J3 & _ & _ & J6 & J7 & _) end.
    rewrite J6, J3. split; [rewrite TL; cbv iota; rewrite R; reflexivity|]. split; [reflexivity|]. apply J7. rewrite TL. cbv iota. rewrite R. reflexivity. }
  destruct JJ as (J1 & J2 & J3).
  assert (FIN : forall x', x' = ext_again c (nth 6 (g_head g) 0) ->
    load_colors DD (st e0 ((le16 (empty_size p s r (colour c) - 2) ++ [0; mode_value c; format_again (nth 4 (g_head g) 0); 0; x'] ++ concat (map again (seq 0 (6 + p)))) ++ g_styles g ++ concat (map eqn_bytes (map (new_eqn retext) (g_eqns g))) ++ [56; 52; 67] ++ t_colors t ++ zeros 5)) =
    oret (st e0 (gdb_bytes (gdb_again c again retext g)))).
  { intros x' ->. set (P1 := le16 _ ++ _).
    replace (P1 ++ g_styles g ++ concat (map eqn_bytes (map (new_eqn retext) (g_eqns g))) ++ [56; 52; 67] ++ t_colors t ++ zeros 5) with ((P1 ++ g_styles g ++ concat (map eqn_bytes (map (new_eqn retext) (g_eqns g)))) ++ [56; 52; 67] ++ t_colors t ++ zeros 5) by (rewrite <- !app_assoc; reflexivity).
    rewrite (load_colors_ok e0 c p s r DD _ [56; 52; 67] (t_colors t) grid axes line border asym E0 S C eq_refl LC NG NA NL NB BA J1). unfold gdb_again. rewrite S, TL. cbn [option_map]. rewrite R. unfold gdb_bytes, tail_bytes. cbn [g_head g_styles g_eqns g_tail t_magic t_colors t_rest].
    fold P1. rewrite <- !app_assoc. reflexivity. }
  match goal with |- load_special DD (st e0 (gdb_bytes ?gg)) = _ => set (G := gg) in * end.
  assert (GB : gdb_bytes G = (le16 (empty_size p s r (colour c) - 2) ++ [0; mode_value c; format_again (nth 4 (g_head g) 0); 0; nth 6 (g_head g) 0 mod 2] ++ concat (map again (seq 0 (6 + p)))) ++ g_styles g ++ concat (map eqn_bytes (map (new_eqn retext) (g_eqns g))) ++ [56; 52; 67] ++ t_colors t ++ zeros 5).
  { unfold G, gdb_bytes, tail_bytes, blank. rewrite S. cbn [g_head g_styles g_eqns g_tail t_magic t_colors t_rest]. rewrite TL. reflexivity. }
  destruct (is_seq c) eqn:SQ.
  - assert (K0 : kinds = []).
    { unfold seq_items in SI. rewrite SQ in SI. destruct SI as (o & k & _ & K & _ & ->). destruct (seq_kind_ok _ B5) as (k' & K' & NK'). rewrite K in K'. injection K' as <-. rewrite (NK eq_refl) in NK'. subst. reflexivity. }
    assert (c = KSeq) as Hc by (destruct c; try discriminate SQ; try discriminate C; reflexivity). rewrite special_seq by (rewrite E0; exact Hc).
    assert (HX : exists a b R0, gdb_bytes G = a :: b :: 0 :: mode_value c :: format_again (nth 4 (g_head g) 0) :: 0 :: (nth 6 (g_head g) 0) mod 2 :: R0 /\ le16 (empty_size p s r (colour c) - 2) = [a; b] /\ R0 = concat (map again (seq 0 (6 + p))) ++ g_styles g ++ concat (map eqn_bytes (map (new_eqn retext) (g_eqns g))) ++ [56; 52; 67] ++ t_colors t ++ zeros 5).
    { rewrite GB. do 3 eexists. split; [|split; [reflexivity|reflexivity]]. rewrite <- !app_assoc. reflexivity. }
    destruct HX as (a & b & R0 & HX & LE16 & HR). rewrite HX.
    rewrite (load_sequence_ok e0 DD _ a b 0 (mode_value c) (format_again (nth 4 (g_head g) 0)) 0 (nth 6 (g_head g) 0) R0 B6 J2).
    + rewrite obind_oret. rewrite <- (FIN (ext_again KSeq (nth 6 (g_head g) 0)) ltac:(rewrite Hc; reflexivity)). rewrite LE16, HR, <- !app_assoc. reflexivity.
    + rewrite J3, K0. reflexivity.
    + unfold seq_items in SI. rewrite SQ in SI. destruct SI as (o & k & O & _ & -> & _). exists o. split; [exact O|]. destruct o; reflexivity.
  - rewrite (special_colour e0 c G DD E0 C SQ OG), GB. apply FIN. unfold ext_again. rewrite SQ. reflexivity.
Qed.

(** C112: a sequence GDB whose plot type has a name does not load its own dictionary. *)
Theorem C112_sequence e e0 g js again txt retext : let c := e_cls e in
  gdb_shown c g -> c = KSeq -> names_fit g -> (forall i, (i < length (g_styles g))%nat -> color_at g i <> 0) ->
  named_kind (nth 5 (g_head g) 0) = true ->
  e_data e = Buf true (gdb_bytes g) -> e_cls e0 = c ->
  numbers_reload real_of number_of whole_of misfit c g js again -> texts_reload expr_of load_expr json_name c g txt retext ->
  exists D, gdb_dict number_of whole_of expr_of json_name e = oret D /\ gdb_load_dict real_of misfit load_expr other_attr D e0 = oerr KeyError.
Proof.
  intros c SH Hc NF H NK ED E0 N T. assert (C : colour c = true) by (rewrite Hc; reflexivity). assert (SQ : is_seq c = true) by (rewrite Hc; reflexivity).
  pose proof SH as (OK & _ & B4 & B5 & B6 & TL). fold c in TL. rewrite C in TL. destruct TL as (t & TL & NR). pose proof OK as (p & s & r & S & LH & LS & LE & FE & TK).
  destruct (gdb_dict_ok e c p s r g js again txt retext eq_refl S SH N T) as (fl & ext & kinds & F2 & SI & D).
  exists (shown_dict c g js txt fl ext kinds (s * r)). split; [replace e with (st e (gdb_bytes g)) by (destruct e; cbn in ED; subst; reflexivity); exact D|].
  destruct (loads_coloured e0 c p s r g js again txt retext fl ext kinds E0 S SH NF C H N T F2 SI) as (OG & ->).
  set (DD := shown_dict c g js txt fl ext kinds (s * r)). destruct NR as (grid & axes & line & border & asym & R & _).
  assert (JJ : jfind (s2l "extSettings") DD = Some (JObj ((s2l "showExpr", JBool (negb (Z.testbit (nth 6 (g_head g) 0) 0))) :: ext)) /\ jfind (s2l "seqSettings") DD = jfind (s2l "seqSettings") kinds /\ jfind (s2l "seqMode") DD = None).
  { unfold DD, shown_dict. match goal with |- context [gdb_json _ _ _ _ _ _ ?q ?gl] => destruct (jfind_json c fl (nth 6 (g_head g) 0) ext kinds js q gl c _ SI) as (_ & _ & J3 & _ & _ & _ & J7 & J8) end.
    rewrite J3. split; [reflexivity|]. split; [apply J7; rewrite TL; cbv iota; rewrite R; reflexivity|]. apply J8. rewrite TL. cbv iota. rewrite R. reflexivity. }
  destruct JJ as (J2 & J3 & J4). rewrite special_seq by (rewrite E0; exact Hc).
  unfold seq_items in SI. rewrite SQ in SI. destruct SI as (o & k & O & K & X1 & X2). destruct (seq_kind_ok _ B5) as (k' & K' & NK'). rewrite K in K'. injection K' as <-. rewrite NK in NK'. destruct k as [kt|]; [|now destruct NK'].
  match goal with |- context [st e0 (gdb_bytes ?gg)] => assert (HX : exists a b R0, gdb_bytes gg = a :: b :: 0 :: mode_value c :: format_again (nth 4 (g_head g) 0) :: 0 :: (nth 6 (g_head g) 0) mod 2 :: R0) end.
  { unfold gdb_bytes, blank. rewrite S. cbn [g_head]. unfold le16. cbn [le_bytes app]. do 3 eexists. reflexivity. }
  destruct HX as (a & b & R0 & HX). rewrite HX. rewrite X2 in J3.
  rewrite (load_sequence_err e0 DD _ a b 0 (mode_value c) (format_again (nth 4 (g_head g) 0)) 0 (nth 6 (g_head g) 0) R0 _ B6 J2 J3 J4); [reflexivity|]. exists o. split; [exact O|]. rewrite X1. destruct o; reflexivity.
Qed.
End Reload.

(** C110: exactly these GDBs come back unchanged. *)
Lemma flag_kept f : is_byte f -> (flag_again f = f <-> Z.land f 31 = 3).
Proof.
  intros B. pose proof (by_bytes (fun f => Bool.eqb (flag_again f =? f) (Z.land f 31 =? 3)) ltac:(vm_compute; reflexivity) f B) as H. apply Bool.eqb_prop in H.
  destruct (Z.eqb_spec (flag_again f) f), (Z.eqb_spec (Z.land f 31) 3); try discriminate H; split; intros; congruence.
Qed.
Lemma format_kept f : is_byte f -> (format_again f = f <-> f < 128).
Proof.
  intros B. pose proof (by_bytes (fun f => Bool.eqb (format_again f =? f) (f <? 128)) ltac:(vm_compute; reflexivity) f B) as H. apply Bool.eqb_prop in H.
  destruct (Z.eqb_spec (format_again f) f), (Z.ltb_spec f 128); try discriminate H; split; intros; try congruence; try lia.
Qed.
Lemma ext_kept c x : is_byte x -> (ext_again c x = x <-> if is_seq c then 0 <= x < 6 else 0 <= x < 2).
Proof.
  intros B. unfold is_byte in B. unfold ext_again. destruct (is_seq c); cbn [andb]; [|split; intros; Z.div_mod_to_equations; lia].
  destruct (Z.eqb_spec (x mod 8 / 2) 3); cbn [negb]; split; intros; Z.div_mod_to_equations; lia.
Qed.
Theorem C110_identity c g again retext : gdb_shown c g -> (forall k, (k < length (params c))%nat -> length (again k) = 9%nat) ->
  Forall (fun q => is_byte (x_flag q) /\ zlen (retext q) < 65536) (g_eqns g) ->
  gdb_bytes (gdb_again c again retext g) = gdb_bytes g <-> gdb_kept c again retext g.
Proof.
  intros SH LN FQ. pose proof SH as (OK & M & B4 & B5 & B6 & TL). pose proof OK as (p & s & r & S & LH & LS & LE & FE & TK).
  assert (NL : length (concat (map again (seq 0 (6 + p)))) = (9 * (6 + p))%nat).
  { rewrite (nines_concat (map again (seq 0 (6 + p)))); [rewrite map_length, seq_length; lia|]. unfold nines. apply Forall_forall. intros x Hx. apply in_map_iff in Hx as (k & <- & Hk). apply in_seq in Hk. apply LN. rewrite (params_length c p s r S). lia. }
  transitivity (gdb_again c again retext g = g).
  { split; [|congruence]. apply (gdb_inj c); [|exact OK|].
    - exists p, s, r. split; [exact S|]. unfold gdb_again. rewrite S. cbn [g_head g_styles g_eqns g_tail]. split; [|split; [exact LS|split; [now rewrite map_length|split]]].
      + rewrite !app_length. unfold le16. cbn [le_bytes length]. clear - NL. etransitivity; [apply (f_equal (fun n => (2 + (5 + n))%nat) NL)|lia].
      + apply Forall_forall. intros q Q. apply in_map_iff in Q as (q0 & <- & Q). rewrite Forall_forall in FQ. apply FQ. exact Q.
      + destruct (g_tail g) as [t|]; [|exact I]. cbn [option_map t_magic t_colors t_rest]. destruct TK as (A & B & C). split; [reflexivity|]. split; [exact B|].
        destruct (t_rest t) as [|? [|? [|? [|? [|? [|? ?]]]]]]; try discriminate C. reflexivity.
    - unfold gdb_again. rewrite S. cbn [g_tail]. destruct (g_tail g); cbn; split; intros; congruence. }
  destruct (head_split c g SH) as (a & b & z & f & sq & x & T & H & Hf & Hq & Hx). rewrite <- Hf in B4. rewrite <- Hx in B6. clear Hq.
  unfold gdb_again, gdb_kept. rewrite S. destruct g as [h ss qs tl]. cbn [g_head g_styles g_eqns g_tail] in *. rewrite <- Hf, <- Hx. subst h. cbn [length] in LH.
  split.
  - intros E. pose proof (f_equal g_head E) as E1. pose proof (f_equal g_eqns E) as E2. pose proof (f_equal g_tail E) as E3. clear E. cbn [g_head g_eqns g_tail] in E1, E2, E3. exists p, s, r, f, (x :: T). split; [reflexivity|].
    unfold le16 in *. cbn [le_bytes app] in *. injection E1 as A1 A2 A3 A5 A6 A7 A8. split; [congruence|].
    split; [unfold is_byte in B4; apply format_kept in A5; [lia|exact B4]|]. split; [exists x, T; split; [reflexivity|]; split; [now apply ext_kept|symmetry; exact A8]|]. split.
    + clear - E2 FQ. induction qs as [|q qs IH]; [constructor|]. apply Forall_cons_iff in FQ as ((B & L) & F). cbn [map] in E2. injection E2 as Q1 Q2. constructor; [|now apply IH].
      destruct q as [fl bo]. injection Q1 as Q1 Q3. cbn [x_flag x_body] in *. split; [now apply flag_kept|congruence].
    + destruct tl as [t|]; [|exact I]. cbn [option_map] in E3. destruct t as [mg co re]. cbn [t_magic t_colors t_rest] in *. injection E3 as T1 T2. split; [congruence|].
      destruct TK as (_ & _ & LR). destruct re as [|r1 [|r2 [|r3 [|r4 [|r5 [|]]]]]]; try discriminate LR. exists r1, r2, r3, r4, r5. split; [reflexivity|]. injection T2 as T2 T3.
      split; [intros ->; discriminate T2|]. Z.div_mod_to_equations; lia.
  - intros (p' & s' & r' & f' & T' & S' & HH & F & (x' & nums & -> & XE & ->) & FK & TKK). injection S' as <- <- <-.
    unfold le16 in *. cbn [le_bytes app] in *. injection HH as -> -> -> -> -> -> ->. f_equal.
    + f_equal. f_equal. f_equal. f_equal. f_equal; [apply format_kept; [exact B4|lia]|]. f_equal. f_equal. now apply ext_kept.
    + clear - FK FQ. induction qs as [|q qs IH]; [reflexivity|]. apply Forall_cons_iff in FQ as ((B & L) & FQ). apply Forall_cons_iff in FK as ((K1 & K2) & FK). cbn [map]. rewrite (IH FQ FK). f_equal.
      destruct q as [fl bo]. cbn [x_flag x_body] in *. f_equal; [now apply flag_kept|congruence].
    + destruct tl as [[mg co re]|]; [|reflexivity]. cbn [option_map t_magic t_colors t_rest] in *. destruct TKK as (-> & r1 & r2 & r3 & r4 & r5 & -> & NB & AS). replace (r4 =? 0) with false by lia. do 3 f_equal. 
      rewrite Z.mod_small by lia. reflexivity.
Qed.

(** C109: one equation and its dictionary. *)
Theorem C109_equation (expr_of : geq -> out str) (load_expr : jv -> out bytes) q style color txt (tokens : bytes) :
  is_byte (x_flag q) -> is_byte style -> is_byte color ->
  expr_of (Geq (eqn_bytes q) (Some [style]) (Some [color])) = oret txt -> load_expr (JStr txt) = oret (le16 (zlen tokens) ++ tokens) ->
  exists j, equation_dict expr_of (Geq (eqn_bytes q) (Some [style]) (Some [color])) = oret j /\
    (named_style style -> 1 <= color <= 15 -> equation_load load_expr j = oret (Geq (eqn_bytes (Eqn (3 + Z.land (x_flag q) 224) tokens)) (Some [style]) (Some [color]))) /\
    (named_style style -> color = 0 -> equation_load load_expr j = oerr KeyError) /\
    (style > 6 \/ color > 15 -> equation_load load_expr j = oerr TypeError).
Proof.
  intros B BS BC X Y. eexists. split; [exact (equation_dict_ok expr_of q style color txt B X)|]. unfold is_byte in BS, BC. split; [|split].
  - intros NS NC. apply (equation_load_ok load_expr (x_flag q) style color txt _ B NS); [unfold named_color; lia|lia|exact Y].
  - intros NS ->. apply (equation_load_mono load_expr _ _ _ NS).
  - intros H. destruct (Z_le_dec style 6) as [L | L]; [|apply equation_load_style; [unfold is_byte; lia|unfold named_style; lia]].
    apply equation_load_color; unfold named_style, named_color, is_byte; lia.
Qed.
Theorem C109_identity q : is_byte (x_flag q) -> (Eqn (3 + Z.land (x_flag q) 224) (x_body q) = q <-> Z.land (x_flag q) 31 = 3).
Proof.
  intros B. destruct q as [f b]. cbn [x_flag x_body] in *. rewrite <- (flag_kept f B). unfold flag_again. split; [intros H; now injection H|congruence].
Qed.

(** C113: what the packaged defaults load as.  Only these numbers and the empty text
    occur in them. *)
Definition default_numbers : list (jv * bytes) :=
  [ (JNum (-100) (-1), [128; 129; 16; 0; 0; 0; 0; 0; 0]); (JNum 100 (-1), [0; 129; 16; 0; 0; 0; 0; 0; 0]); (JNum 10 (-1), [0; 128; 16; 0; 0; 0; 0; 0; 0]);
    (JNum 0 (-1), [0; 128; 0; 0; 0; 0; 0; 0; 0]); (JNum 0 0, [0; 128; 0; 0; 0; 0; 0; 0; 0]); (JNum 10 0, [0; 129; 16; 0; 0; 0; 0; 0; 0]); (JNum 1 0, [0; 128; 16; 0; 0; 0; 0; 0; 0]);
    (JNum 6283185307 (-9), [0; 128; 98; 131; 24; 83; 7; 0; 0]); (JNum 13089969389957 (-14), [0; 127; 19; 8; 153; 105; 56; 153; 87]); (JStr [], [0; 128; 0; 0; 0; 0; 0; 0; 0]) ].
Definition default_settings : list (str * jv) :=
  map (fun p => (s2l (fst p), snd p))
  [ ("Xmin", JNum (-100) (-1)); ("Xmax", JNum 100 (-1)); ("Xscl", JNum 10 (-1)); ("Ymin", JNum (-100) (-1)); ("Ymax", JNum 100 (-1)); ("Yscl", JNum 10 (-1)); ("Xres", JNum 10 (-1));
    ("Tmin", JNum 0 (-1)); ("Tmax", JNum 6283185307 (-9)); ("Tstep", JNum 13089969389957 (-14)); ("Thetamin", JNum 0 (-1)); ("Thetamax", JNum 6283185307 (-9)); ("Thetastep", JNum 13089969389957 (-14));
    ("nMin", JNum 0 0); ("nMax", JNum 10 0); ("PlotStart", JNum 1 0); ("PlotStep", JNum 1 0);
    ("unMin", JStr []); ("unMinp1", JStr []); ("vnMin", JStr []); ("vnMinp1", JStr []); ("wnMin", JStr []); ("wnMinp1", JStr []) ]%string.
(** They are read as these numbers, without a warning under their own names. *)
Definition defaults_read (real_of : jv -> out bytes) (misfit : str -> bytes -> bool) (load_expr : jv -> out bytes) : Prop :=
  Forall (fun p => real_of (fst p) = oret (snd p)) default_numbers /\
  Forall (fun s => Forall (fun p => fst p = snd s -> misfit (fst s) (snd p) = false) default_numbers) default_settings /\ load_expr (JStr []) = oret [0; 0].
Definition jv_is (a b : jv) : bool :=
  match a, b with JNum m e, JNum m' e' => (m =? m') && (e =? e') | JStr [], JStr [] => true | _, _ => false end.
Definition real0 (j : jv) : out bytes := match find (fun p => jv_is (fst p) j) default_numbers with Some p => oret (snd p) | None => oerr ValueError end.
Definition expr0 (j : jv) : out bytes := match j with JStr [] => oret [0; 0] | _ => oerr ValueError end.
Definition none0 (e : entry) (n : str) (j : jv) : option (out entry) := None.
Section Defaults.
Variable real_of : jv -> out bytes.
Variable misfit : str -> bytes -> bool.
Variable load_expr : jv -> out bytes.
Variable other_attr : entry -> str -> jv -> option (out entry).
Hypothesis R : defaults_read real_of misfit load_expr.
Hypothesis OA : forall e n j, other_attr e n j = None.
Definition known_item (p : str * jv) : bool := existsb (fun q => jv_is (fst q) (snd p)) default_numbers && existsb (fun q => leqb (fst q) (fst p) && jv_is (snd q) (snd p)) default_settings.
Lemma jv_is_eq a b : jv_is a b = true -> a = b.
Proof. destruct a as [| |m e|[|]| |], b as [| |m' e'|[|]| |]; cbn; intros H; try discriminate H; [|reflexivity]. apply andb_true_iff in H as [A B]. apply Z.eqb_eq in A, B. congruence. Qed.
Lemma known_same l : forallb known_item l = true -> same_reals real_of real0 misfit (fun _ _ => false) l.
Proof.
  intros F. rewrite forallb_forall in F. apply Forall_forall. intros [n j] H. specialize (F _ H). unfold known_item in F. cbn [snd fst] in *. destruct R as (T & U & _). apply andb_true_iff in F as [F F']. unfold real0.
  destruct (find (fun q => jv_is (fst q) j) default_numbers) as [q|] eqn:Q.
  - apply find_some in Q as [Q1 Q2]. apply jv_is_eq in Q2. subst j. rewrite Forall_forall in T. pose proof (T q Q1) as A. cbv beta in A. rewrite A. split; [reflexivity|]. split; [|eexists; reflexivity]. intros x X. injection X as <-.
    apply existsb_exists in F' as ([n' j'] & S1 & S2). cbn [fst snd] in S2. apply andb_true_iff in S2 as [S2 S3]. apply leqb_spec in S2. apply jv_is_eq in S3. subst n' j'. rewrite Forall_forall in U. specialize (U _ S1). rewrite Forall_forall in U. exact (U q Q1 eq_refl).
  - exfalso. apply existsb_exists in F as (q & Q1 & Q2). pose proof (find_none _ _ Q q Q1) as Q3. cbv beta in Q3. congruence.
Qed.
Definition empty_text (p : str * jv) : bool := match snd p with JObj q => match jfind (s2l "expr") q with Some (JStr []) => true | _ => false end | _ => false end.
Lemma empty_same l : forallb empty_text l = true -> same_texts load_expr expr0 l.
Proof.
  intros F. rewrite forallb_forall in F. apply Forall_forall. intros [n j] H. specialize (F _ H). unfold empty_text in F. cbn [snd] in *. destruct j as [| | | | |q]; try exact I. destruct (jfind (s2l "expr") q) as [[| | |[|]| |]|]; try discriminate F. apply R.
Qed.
Lemma default_same c e : gdb_load_dict real_of misfit load_expr other_attr (default_dict c) e = gdb_load_dict real0 (fun _ _ => false) expr0 none0 (default_dict c) e.
Proof.
  apply gdb_load_same; [intros; apply OA| | |].
  - apply known_same. destruct c; vm_compute; reflexivity.
  - apply known_same. destruct c; vm_compute; reflexivity.
  - apply empty_same. destruct c; vm_compute; reflexivity.
Qed.
(** The three colour modes get their default. *)
Theorem C113_default e : In (e_cls e) [KFunc; KParam; KPolar] ->
  gdb_ok (e_cls e) (default_gdb (e_cls e)) /\
  gdb_load_dict real_of misfit load_expr other_attr (default_dict (e_cls e)) e = oret (with_data e (Buf true (gdb_bytes (default_gdb (e_cls e))))).
Proof.
  intros H. rewrite default_same. destruct e as [c me ty nm ve ar da]. cbn [e_cls] in *. destruct H as [<- | [<- | [<- | []]]]; (split; [|vm_compute; reflexivity]).
  - exists 1%nat, 10%nat, 1%nat. repeat split; try reflexivity. apply Forall_forall. intros q Q. apply repeat_spec in Q. subst. reflexivity.
  - exists 3%nat, 6%nat, 2%nat. repeat split; try reflexivity. apply Forall_forall. intros q Q. apply repeat_spec in Q. subst. reflexivity.
  - exists 3%nat, 6%nat, 1%nat. repeat split; try reflexivity. apply Forall_forall. intros q Q. apply repeat_spec in Q. subst. reflexivity.
Qed.
(** The sequence default never loads. *)
Theorem C113_sequence e : In (e_cls e) [KSeq; KMonoSeq] -> gdb_load_dict real_of misfit load_expr other_attr (default_dict (e_cls e)) e = oerr KeyError.
Proof. intros H. rewrite default_same. destruct e as [c me ty nm ve ar da]. cbn [e_cls] in *. destruct H as [<- | [<- | []]]; vm_compute; reflexivity. Qed.
(** The monochrome modes become colour GDBs of the same size, with the colour data over
    the end of the equations. *)
Theorem C113_mono e : In (e_cls e) [KMonoFunc; KMonoParam; KMonoPolar] -> exists e' p s r,
  gdb_load_dict real_of misfit load_expr other_attr (default_dict (e_cls e)) e = oret e' /\
  colour (e_cls e') = true /\ shape (e_cls e) = Some (p, s, r) /\ shape (e_cls e') = Some (p, s, r) /\ zlen (calc_data e') = empty_size p s r false /\
  forall g, gdb_ok (e_cls e') g -> calc_data e' <> gdb_bytes g.
Proof.
  intros H. rewrite default_same. destruct e as [c me ty nm ve ar da]. cbn [e_cls] in *.
  assert (OKS : forall n, Forall eqn_ok (repeat (Eqn 3 []) n)) by (intros n; apply Forall_forall; intros q Q; apply repeat_spec in Q; subst; reflexivity).
  destruct H as [<- | [<- | [<- | []]]]; do 4 eexists; (split; [vm_compute; reflexivity|]); (split; [reflexivity|]); (split; [reflexivity|]); (split; [reflexivity|]); (split; [vm_compute; reflexivity|]); intros g OK; cbn [e_cls] in OK.
  - match goal with |- calc_data ?x <> _ => set (d := calc_data x) end.
    apply (not_a_gdb KFunc 1 10 1 (firstn 80 d) (repeat (Eqn 3 []) 4) 56 52 67 (skipn 95 d) eq_refl eq_refl ltac:(cbn; lia) (OKS 4%nat) ltac:(lia) ltac:(vm_compute; reflexivity) g OK).
  - match goal with |- calc_data ?x <> _ => set (d := calc_data x) end.
    apply (not_a_gdb KParam 3 6 2 (firstn 94 d) (repeat (Eqn 3 []) 7) 3 56 52 (skipn 118 d) eq_refl eq_refl ltac:(cbn; lia) (OKS 7%nat) ltac:(lia) ltac:(vm_compute; reflexivity) g OK).
  - match goal with |- calc_data ?x <> _ => set (d := calc_data x) end.
    apply (not_a_gdb KPolar 3 6 1 (firstn 94 d) (repeat (Eqn 3 []) 1) 3 56 52 (skipn 100 d) eq_refl eq_refl ltac:(cbn; lia) (OKS 1%nat) ltac:(lia) ltac:(vm_compute; reflexivity) g OK).
Qed.
(** The two general classes take the class of the mode but ignore its own window
    settings and all equations, each with a warning: the payload is too short. *)
Theorem C113_general e c : In (e_cls e) [KMonoGDB; KGDB] -> In c [KFunc; KPolar] -> exists e' p s r,
  gdb_load_dict real_of misfit load_expr other_attr (default_dict c) e = (repeat WSettings (p + s * r), Ok e') /\ shape c = Some (p, s, r) /\
  e_cls e' = c /\ forall g, gdb_ok c g -> zlen (calc_data e') < zlen (gdb_bytes g).
Proof.
  intros H H'. rewrite default_same.
  assert (Q : forall p s r, shape c = Some (p, s, r) -> exists e', gdb_load_dict real0 (fun _ _ => false) expr0 none0 (default_dict c) e = (repeat WSettings (p + s * r), Ok e') /\ e_cls e' = c /\ zlen (calc_data e') <= 66).
  { intros p s r S. destruct e as [k me ty nm ve ar da]. cbn [e_cls] in *.
    destruct H as [<- | [<- | []]]; destruct H' as [<- | [<- | []]]; injection S as <- <- <-; eexists; (split; [vm_compute; reflexivity|]); (split; [reflexivity|]); vm_compute; discriminate. }
  assert (SE : exists p s r, shape c = Some (p, s, r)) by (destruct H' as [<- | [<- | []]]; do 3 eexists; reflexivity).
  destruct SE as (p & s & r & S). destruct (Q p s r S) as (e' & A & B & C). exists e', p, s, r. split; [exact A|]. split; [exact S|]. split; [exact B|]. intros g (p' & s' & r' & S' & LH & LS & _). rewrite S in S'. injection S' as <- <- <-.
  unfold gdb_bytes, zlen in *. rewrite !app_length, LH, LS. destruct H' as [<- | [<- | []]]; injection S as <- <- <-; lia.
Qed.
Theorem C113_general_param e : In (e_cls e) [KMonoGDB; KGDB] ->
  gdb_load_dict real_of misfit load_expr other_attr (default_dict KParam) e = (repeat WSettings 15, Err IndexError).
Proof. intros H. rewrite default_same. destruct e as [k me ty nm ve ar da]. cbn [e_cls] in *. destruct H as [<- | [<- | []]]; vm_compute; reflexivity. Qed.
End Defaults.

(** C114: unknown names only warn. *)
Lemma index_none n l : ~ In n l -> index_of n l = None.
Proof.
  induction l as [|k l IH]; intros H; [reflexivity|]. cbn [index_of]. destruct (leqb k n) eqn:E; [apply leqb_spec in E; destruct H; now left|]. rewrite IH; [reflexivity|]. intros I. apply H. now right.
Qed.
Lemma merge_name s : match attribute graph_mode (JStr s), bits_of s with
  | Ok bits, Some (a, b) => forall x, is_byte x -> merged bits x = Some (Z.lor (Z.ldiff x b) a) /\ is_byte (Z.lor (Z.ldiff x b) a)
  | Err AttributeError, None => True
  | _, _ => False
  end.
Proof.
  unfold attribute, bits_of.
  assert (K : forall (t : list (str * flags)) (t' : list (str * (Z * Z))), map fst t = map fst t' -> match @assoc flags s t, find (fun p => leqb (fst p) s) t' with Some bits, Some p => In (bits, snd p) (combine (map snd t) (map snd t')) | None, None => True | _, _ => False end).
  { induction t as [|[k v] t IH]; intros [|[k' v'] t'] E; try discriminate E; [exact I|]. cbn [map fst] in E. injection E as <- E. cbn [assoc find fst map snd combine]. destruct (leqb k s); [now left|].
    specialize (IH t' E). destruct (assoc s t), (find (fun p => leqb (fst p) s) t'); auto. now right. }
  specialize (K graph_mode format_bits eq_refl). destruct (assoc s graph_mode) as [bits|], (find (fun p => leqb (fst p) s) format_bits) as [[n [a b]]|]; cbn [option_map snd] in *; auto.
  intros x B. assert (C : forallb (fun p => forallb (fun x => match merged (fst p) x with Some y => (y =? Z.lor (Z.ldiff x (snd (snd p))) (fst (snd p))) && (0 <=? y) && (y <? 256) | None => false end) (map Z.of_nat (seq 0 256))) (combine (map snd graph_mode) (map snd format_bits)) = true) by (vm_compute; reflexivity).
  rewrite forallb_forall in C. specialize (C _ K). rewrite forallb_forall in C. specialize (C x ltac:(apply in_map_iff; exists (Z.to_nat x); unfold is_byte in B; split; [lia|apply in_seq; lia])). cbn [fst snd] in C.
  destruct (merged bits x) as [y|]; [|discriminate]. apply andb_prop in C as [C C3]. apply andb_prop in C as [C1 C2]. apply Z.eqb_eq in C1. subst y. split; [reflexivity|]. unfold is_byte. lia.
Qed.
Theorem C114_formats e (pre post : bytes) l : length pre = 4%nat -> forall x, is_byte x -> e_data e = Buf true (pre ++ [x] ++ post) ->
  load_formats (map JStr l) e = (repeat WSettings (unknown_formats l), Ok (with_data e (Buf true (pre ++ [formats_byte l x] ++ post)))).
Proof.
  intros L x B ED. replace e with (st e (pre ++ [x] ++ post)) at 1 by (destruct e; cbn in ED; subst; reflexivity). clear ED. fold (st e (pre ++ [formats_byte l x] ++ post)). revert x B.
  induction l as [|s l IH]; intros x B; [reflexivity|]. cbn [map load_formats unknown_formats formats_byte]. pose proof (merge_name s) as M. destruct (attribute graph_mode (JStr s)) as [bits|err].
  - destruct (bits_of s) as [[a b]|]; [|contradiction]. destruct (M x B) as [M1 M2]. rewrite (merge_split e mode_view bits pre post x (Z.lor (Z.ldiff x b) a)); [|apply (front_resolves pre [x] post); unfold zlen; rewrite L; reflexivity|exact M1]. rewrite obind_oret. exact (IH _ M2).
  - destruct err; try contradiction. destruct (bits_of s); [contradiction|]. unfold owarn, obind. rewrite (IH x B). reflexivity.
Qed.
(** Window settings under unknown names. *)
Theorem C114_window real_of misfit other_attr l1 n j l2 e e1 w1 : load_reals real_of misfit other_attr l1 e = (w1, Ok e1) ->
  real_view (e_cls e1) n = None -> other_attr e1 n j = None ->
  load_reals real_of misfit other_attr (l1 ++ (n, j) :: l2) e = let '(w2, r) := load_reals real_of misfit other_attr l2 e1 in (w1 ++ WSettings :: w2, r).
Proof.
  revert e w1. induction l1 as [|[m x] l1 IH]; intros e w1 H R O.
  - injection H as <- <-. cbn [app load_reals]. rewrite R, O. unfold owarn, obind. destruct (load_reals _ _ _ l2 e) as [w2 r]. reflexivity.
  - cbn [app load_reals] in *. destruct (real_view (e_cls e) m) as [v|].
    + unfold obind in *. destruct (real_of x) as [wa [a|]]; [|discriminate]. destruct (owarn_if (misfit m a) WGraphReal) as [wb [[]|]]; [|discriminate]. destruct (set_field e v a) as [wc [e2|]]; [|discriminate].
      destruct (load_reals real_of misfit other_attr l1 e2) as [wd [e3|]] eqn:Q; [|discriminate]. injection H as <- ->. rewrite (IH e2 wd Q R O). destruct (load_reals _ _ _ l2 e1) as [w2 r]. now rewrite !app_assoc.
    + destruct (other_attr e m x) as [[wa [e2|]]|].
      * unfold obind in *. destruct (load_reals real_of misfit other_attr l1 e2) as [wd [e3|]] eqn:Q; [|discriminate]. injection H as <- ->. rewrite (IH e2 wd Q R O). destruct (load_reals _ _ _ l2 e1) as [w2 r]. now rewrite !app_assoc.
      * discriminate H.
      * unfold owarn, obind in *. destruct (load_reals real_of misfit other_attr l1 e) as [wd [e3|]] eqn:Q; [|discriminate]. injection H as <- ->. rewrite (IH e wd Q R O). destruct (load_reals _ _ _ l2 e1) as [w2 r]. reflexivity.
Qed.
(** Equations under unknown names. *)
Theorem C114_equations load_expr l e : (forall n j, In (n, j) l -> ~ In n (equation_names (e_cls e))) -> load_equations load_expr l e = (repeat WSettings (length l), Ok e).
Proof.
  induction l as [|[n j] l IH]; intros H; [reflexivity|]. cbn [load_equations length repeat]. rewrite (index_none n (equation_names (e_cls e))) by (apply (H n j); now left).
  unfold owarn, obind. rewrite IH by (intros n' j' I; apply (H n' j'); now right). reflexivity.
Qed.

(** The names: what each enumeration shows for a value and accepts for a name. *)
Definition shown_name (l : list str) (v : Z) : jv :=
  if v <? 0 then JNull else match nth_error l (Z.to_nat v) with Some s => JStr s | None => JNull end.
Theorem C109_shown_names : forall v, name_of graph_style v = shown_name style_list v /\ name_of graph_color v = shown_name color_list v /\
  name_of line_style v = shown_name line_list v.
Proof.
  assert (G : forall (l : list str) k v, name_of (combine l (map Z.of_nat (seq k (length l)))) v = if v <? Z.of_nat k then JNull else
    match nth_error l (Z.to_nat v - k) with Some s => JStr s | None => JNull end).
  { induction l as [|a l IH]; intros k v; cbn [length seq map combine name_of].
    - destruct (v <? Z.of_nat k); [reflexivity|]. now destruct (Z.to_nat v - k)%nat.
    - destruct (Z.eqb_spec (Z.of_nat k) v) as [<-|D].
      + rewrite Z.ltb_irrefl, Nat2Z.id, Nat.sub_diag. reflexivity.
      + rewrite IH. destruct (Z.ltb_spec v (Z.of_nat (S k))), (Z.ltb_spec v (Z.of_nat k)); try reflexivity; try (exfalso; lia).
        replace (Z.to_nat v - k)%nat with (S (Z.to_nat v - S k)) by lia. reflexivity. }
  intros v. unfold shown_name. rewrite <- (Nat.sub_0_r (Z.to_nat v)).
  split; [exact (G style_list 0%nat v)|]. split; [exact (G color_list 0%nat v)|exact (G line_list 0%nat v)].
Qed.
Lemma assoc_indexed (l : list str) s : NoDup l -> forall k v, assoc s (combine l (map Z.of_nat (seq k (length l)))) = Some v <->
  exists i, nth_error l i = Some s /\ v = Z.of_nat (k + i).
Proof.
  induction l as [|a l IH]; intros ND k v; cbn [length seq map combine assoc].
  - split; [discriminate|]. intros (i & X & _). destruct i; discriminate X.
  - apply NoDup_cons_iff in ND as (NI & ND). destruct (leqb a s) eqn:Q; [apply leqb_spec in Q; subst s|assert (D : a <> s) by (intros X; apply leqb_spec in X; congruence)].
    + split.
      * intros X. injection X as <-. exists 0%nat. split; [reflexivity|]. f_equal. lia.
      * intros ([|i] & X & ->); [f_equal; lia|]. cbn in X. apply nth_error_In in X. contradiction.
    + rewrite (IH ND). split.
      * intros (i & X & ->). exists (S i). split; [exact X|]. f_equal. lia.
      * intros ([|i] & X & ->); [injection X as X; congruence|]. exists i. split; [exact X|]. f_equal. lia.
Qed.
Theorem C109_accepted_names : forall j v,
  (attribute graph_style j = Ok v <-> exists s, j = JStr s /\ 0 <= v /\ nth_error style_list (Z.to_nat v) = Some s) /\
  (attribute graph_color j = Ok v <-> exists s, j = JStr s /\ 0 <= v /\ nth_error color_list (Z.to_nat v) = Some s) /\
  (attribute line_style j = Ok v <-> exists s, j = JStr s /\ 0 <= v /\ nth_error line_list (Z.to_nat v) = Some s).
Proof.
  assert (G : forall tbl l, NoDup l -> tbl = combine l (map Z.of_nat (seq 0 (length l))) -> forall j v,
    attribute tbl j = Ok v <-> exists s, j = JStr s /\ 0 <= v /\ nth_error l (Z.to_nat v) = Some s).
  { intros tbl l ND -> j v. unfold attribute. split.
    - destruct j; try discriminate. destruct (assoc _ _) eqn:A; [|discriminate]. intros X. injection X as ->.
      apply (assoc_indexed l _ ND) in A as (i & I & ->). eexists. split; [reflexivity|]. split; [lia|]. rewrite Nat2Z.id. exact I.
    - intros (s & -> & P & I). assert (A : assoc s (combine l (map Z.of_nat (seq 0 (length l)))) = Some v).
      { apply assoc_indexed; [exact ND|]. exists (Z.to_nat v). split; [exact I|]. cbn [Nat.add]. lia. }
      now rewrite A. }
  assert (D : forall l : list str, (fix nodup l := match l with [] => true | a :: r => negb (existsb (leqb a) r) && nodup r end) l = true -> NoDup l).
  { induction l as [|a l IH]; intros H; [constructor|]. apply andb_true_iff in H as (A & B). constructor; [|auto].
    intros I. apply negb_true_iff in A. assert (X : existsb (leqb a) l = true) by (apply existsb_exists; exists a; split; [exact I|apply leqb_refl]). congruence. }
  intros j v. repeat split; (apply G; [apply D; vm_compute; reflexivity|reflexivity]).
Qed.
Theorem C114_equation_names : forall c k, nth_error (equation_names c) k = equation_at c k.
Proof. intros c k. do 13 (destruct k as [|k]; [destruct c; reflexivity|]). destruct c; try reflexivity; destruct k; reflexivity. Qed.
Example C114_names_example : nth_error (equation_names KParam) 3 = Some (s2l "Y2T") /\ equation_at KParam 3 = Some (s2l "Y2T") /\
  attribute line_style (JStr (s2l "Thin")) = Ok 2 /\ name_of graph_style 5 = JStr (s2l "Animate").
Proof. repeat split. Qed.
(** A dictionary without a mode loads like one for functions. *)
Theorem C114_missing_mode real_of misfit load_expr other_attr dct e : jfind (s2l "graphMode") dct = None ->
  gdb_load_dict real_of misfit load_expr other_attr dct e = gdb_load_dict real_of misfit load_expr other_attr ((s2l "graphMode", JStr (s2l "Function")) :: dct) e.
Proof. intros H. unfold gdb_load_dict at 1. unfold mode_of. rewrite H. reflexivity. Qed.
(** The dictionary of a GDB with a mode names the mode; without a name for the mode byte
    there is a warning and no name. *)
Lemma mode_read e b : nth_error (calc_data e) 3 = Some b -> mode_text e = match mode_name b with Some n => oret (JStr n) | None => ([WGdb], Ok JNull) end.
Proof.
  intros H. unfold mode_text. assert (E : gdb_mode_id (calc_data e) = b).
  { destruct (calc_data e) as [|x0 [|x1 [|x2 [|x3 d]]]]; try discriminate H. injection H as ->. unfold gdb_mode_id.
    rewrite py_slice_nn; [|lia|lia|rewrite !zlen_cons; pose proof (zlen_nonneg d); lia]. change (b + 256 * 0 = b). lia. }
  rewrite E. unfold mode_names, mode_name. cbn [name_of]. rewrite !(Z.eqb_sym _ b). destruct (b =? 16); [reflexivity|].
  destruct (b =? 64) eqn:P; [replace (b =? 32) with false by lia; reflexivity|]. destruct (b =? 32); [reflexivity|]. destruct (b =? 128); reflexivity.
Qed.
Theorem C109_mode number_of whole_of expr_of json_name e b w D : nth_error (calc_data e) 3 = Some b -> e_cls e <> KGDB ->
  gdb_dict number_of whole_of expr_of json_name e = (w, Ok D) ->
  jfind (s2l "graphMode") D = Some (match mode_name b with Some n => JStr n | None => JNull end) /\ (mode_name b = None -> exists w', w = WGdb :: w').
Proof.
  intros H N. pose proof (mode_read e b H) as M.
  assert (C : forall ext w D, common number_of whole_of e ext = (w, Ok D) -> (exists r, D = (s2l "graphMode", match mode_name b with Some n => JStr n | None => JNull end) :: r) /\ (mode_name b = None -> exists w', w = WGdb :: w')).
  { clear w D. intros ext w D X. unfold common in X. rewrite M in X. destruct (mode_name b) as [n|].
    - rewrite obind_oret in X. apply obind_ok in X as (w1 & f & w2 & _ & X & _). apply obind_ok in X as (w3 & x & w4 & _ & X & _). apply obind_ok in X as (w5 & y & w6 & _ & X & _). injection X as _ <-. split; [eauto|discriminate].
    - unfold obind at 1 in X. destruct (obind (olift _) _) as [w0 r] eqn:Q in X. injection X as <- ->. split; [|intros _; eauto].
      apply obind_ok in Q as (w1 & f & w2 & _ & X & _). apply obind_ok in X as (w3 & x & w4 & _ & X & _). apply obind_ok in X as (w5 & y & w6 & _ & X & _). injection X as _ <-. eauto. }
  assert (J : forall w D, mono_dict number_of whole_of expr_of json_name e = (w, Ok D) ->
    exists l w1 w2, common number_of whole_of e [] = (w1, Ok l) /\ w = w1 ++ w2 /\ exists g r, D = map g l ++ r /\ forall j, g (s2l "graphMode", j) = (s2l "graphMode", j)).
  { clear w D. intros w D X. unfold mono_dict in X.
    destruct (e_cls e);
      try (apply obind_ok in X as (w1 & l & w2 & C1 & X & ->); apply obind_ok in X as (w3 & s & w4 & _ & X & ->); injection X as <- <-; exists l, w1; eexists; split; [exact C1|]; split; [reflexivity|];
           exists (fun p => p), s; split; [now rewrite map_id|reflexivity]);
      try (apply obind_ok in X as (w1 & l & w2 & C1 & X & ->); apply obind_ok in X as (w3 & x & w4 & _ & X & ->); apply obind_ok in X as (w5 & k & w6 & _ & X & ->); cbv zeta in X;
           apply obind_ok in X as (w7 & s & w8 & _ & X & ->); injection X as <- <-; exists l, w1; eexists; split; [exact C1|]; split; [reflexivity|]; destruct x as [t|];
             [eexists (fun p => if leqb (fst p) (s2l "extSettings") then (fst p, match snd p with JObj q => JObj (q ++ [(s2l "seqMode", JStr t)]) | j => j end) else p)
             |exists (fun p => p)]; rewrite ?map_id; destruct k as [t'|];
             [exists ([(s2l "seqSettings", JObj [(s2l "mode", JStr t')])] ++ s); split; [now rewrite app_assoc|reflexivity]|exists s; split; reflexivity
             |exists ([(s2l "seqSettings", JObj [(s2l "mode", JStr t')])] ++ s); split; [now rewrite app_assoc|reflexivity]|exists s; split; reflexivity]).
    exists D, w, []. split; [exact X|]. split; [now rewrite app_nil_r|]. exists (fun p => p), []. split; [now rewrite app_nil_r, map_id|reflexivity]. }
  assert (K : forall w D, mono_dict number_of whole_of expr_of json_name e = (w, Ok D) ->
    (exists r, D = (s2l "graphMode", match mode_name b with Some n => JStr n | None => JNull end) :: r) /\ (mode_name b = None -> exists w', w = WGdb :: w')).
  { clear w D. intros w D X. apply J in X as (l & w1 & w2 & X & -> & g & r & -> & G). apply C in X as ((l' & ->) & X). split; [cbn [map app]; rewrite G; eauto|]. intros Q. destruct (X Q) as (w' & ->). exists (w' ++ w2). reflexivity. }
  intros X. unfold gdb_dict in X. assert (S : exists w1 w2 l r, mono_dict number_of whole_of expr_of json_name e = (w1, Ok l) /\ w = w1 ++ w2 /\ D = l ++ r).
  { destruct (e_cls e); try congruence; try (exists w, [], D, []; rewrite !app_nil_r; now split);
      (apply obind_ok in X as (w1 & l & w2 & X & Y & ->); apply obind_ok in Y as (w3 & g & w4 & _ & Y & ->); injection Y as <- <-; exists w1; do 3 eexists; split; [exact X|]; split; reflexivity). }
  destruct S as (w1 & w2 & l & r & S & -> & ->). apply K in S as ((l' & ->) & S). split; [reflexivity|]. intros Q. destruct (S Q) as (w' & ->). exists (w' ++ w2). reflexivity.
Qed.
Example C109_mode_example : let e := gdb_entry KMonoFunc (gdb_bytes (Gdb ([7; 9; 5; 17; 0; 0; 0] ++ concat (repeat [0; 128; 16; 0; 0; 0; 0; 0; 0] 7)) (repeat 1 10) (repeat (Eqn 3 []) 10) None)) in
  nth_error (calc_data e) 3 = Some 17 /\ mode_name 17 = None /\ exists D, gdb_dict (fun _ => oret JNull) (fun _ => oret JNull) (fun _ => oret []) (fun n => n) e = ([WGdb], Ok D).
Proof. cbv zeta. split; [reflexivity|]. split; [reflexivity|]. eexists. vm_compute. reflexivity. Qed.
Print Assumptions C109_mode.
Print Assumptions C114_missing_mode.
Print Assumptions C109_shown_names.
Print Assumptions C109_accepted_names.
Print Assumptions C114_equation_names.

(** ** Examples: numbers shown as the number their bytes make, tokens as a text of the
    same codes. *)
Definition number1 (b : bytes) : out jv := oret (JNum (fold_left (fun a x => a * 256 + x) b 0) 0).
Definition real1 (j : jv) : out bytes :=
  match j with JNum m _ => oret (map (fun k => m / 256 ^ Z.of_nat (8 - k) mod 256) (seq 0 9)) | _ => oerr TypeError end.
Definition text1 (q : geq) : out str := oret (skipn 3 (q_data q)).
Definition load1 (j : jv) : out bytes := match j with JStr s => oret (le16 (zlen s) ++ s) | _ => oerr TypeError end.
Definition fits1 (n : str) (b : bytes) : bool := false.
Definition nine1 (k : nat) : bytes := [0; 128; 16 + Z.of_nat k; 0; 0; 0; 0; 0; 7].
Definition sample (c : cls) (f sq x : Z) (border : Z) : gdb :=
  match shape c with
  | Some (p, s, r) => Gdb ([7; 9; 5; mode_value c; f; sq; x] ++ concat (map nine1 (seq 0 (6 + p)))) (map (fun i => Z.of_nat i mod 7) (seq 0 s))
                          (map (fun i => Eqn (35 + 32 * (Z.of_nat i mod 2)) (repeat 65 i)) (seq 0 (s * r)))
                          (if colour c then Some (Tail [1; 2; 3] (map (fun i => 1 + Z.of_nat i) (seq 0 s)) [4; 5; 2; border; 7]) else None)
  | None => Gdb [] [] [] None
  end.
Definition again1 (c : cls) (k : nat) : bytes := nine1 (shown_at c k).
Lemma sample_shown c f sq x border p s r : shape c = Some (p, s, r) -> is_byte f -> is_byte sq -> is_byte x -> 0 <= border <= 4 -> gdb_shown c (sample c f sq x border) /\ names_fit (sample c f sq x border).
Proof.
  intros S F Q X B. assert (OK : forall n, Forall eqn_ok (map (fun i => Eqn (35 + 32 * (Z.of_nat i mod 2)) (repeat 65 i)) (seq 0 n)) \/ (20 < n)%nat).
  { intros n. destruct (Nat.le_gt_cases n 20); [left|right; lia]. apply Forall_forall. intros q I. apply in_map_iff in I as (i & <- & I). apply in_seq in I. unfold eqn_ok, zlen. cbn [x_body]. rewrite repeat_length. lia. }
  assert (NR : named_rest [4; 5; 2; border; 7]) by (exists 4, 5, 2, border, 7; unfold named_color, is_byte; repeat split; lia).
  assert (NS : forall n, Forall named_style (map (fun i => Z.of_nat i mod 7) (seq 0 n))) by (intros n; apply Forall_forall; intros y I; apply in_map_iff in I as (i & <- & I); unfold named_style; Z.div_mod_to_equations; lia).
  assert (NC : forall n, (n <= 14)%nat -> Forall named_color (map (fun i => 1 + Z.of_nat i) (seq 0 n))) by (intros n Hn; apply Forall_forall; intros y I; apply in_map_iff in I as (i & <- & I); apply in_seq in I; unfold named_color; lia).
  assert (SB : (s * r <= 20 /\ s <= 14)%nat) by (destruct c; cbn [shape] in S; try discriminate S; injection S as <- <- <-; lia).
  unfold gdb_shown, names_fit, sample. rewrite S. cbn [g_head g_styles g_eqns g_tail]. split; [split; [|split; [|split; [|split; [|split]]]]|split]; try assumption; try reflexivity.
  - exists p, s, r. split; [exact S|]. cbn [g_head g_styles g_eqns g_tail]. split; [|split; [now rewrite map_length, seq_length|split; [now rewrite map_length, seq_length|split]]].
    + destruct c; cbn [shape] in S; try discriminate S; injection S as <- <- <-; reflexivity.
    + destruct (OK (s * r)%nat); [assumption|lia].
    + destruct (colour c); [|exact I]. cbn [t_magic t_colors t_rest]. now rewrite map_length, seq_length.
  - destruct (colour c); [|reflexivity]. eexists. split; [reflexivity|]. exact NR.
  - apply NS.
  - destruct (colour c); [|exact I]. cbn [t_colors]. apply NC. lia.
Qed.
Lemma sample_numbers c f sq x border p s r : shape c = Some (p, s, r) -> exists js, numbers_reload real1 number1 number1 fits1 c (sample c f sq x border) js (again1 c).
Proof.
  intros S. exists (fun k => match snd (number1 (again1 c k)) with Ok j => j | Err _ => JNull end). unfold numbers_reload. intros k K. rewrite (params_length c p s r S) in K.
  destruct c; cbn [shape] in S; try discriminate S; injection S as <- <- <-; cbn [Nat.add] in K;
    repeat (destruct k as [|k]; [vm_compute; repeat split|]; try (exfalso; lia)).
Qed.
Lemma sample_texts c f sq x border p s r : shape c = Some (p, s, r) -> texts_reload text1 load1 (fun n => n) c (sample c f sq x border) (fun i => repeat 65 i) x_body.
Proof.
  intros S. split; [reflexivity|]. intros i q N. unfold sample in N. rewrite S in N. cbn [g_eqns] in N.
  assert (I : (i < s * r)%nat) by (rewrite <- (seq_length (s * r) 0), <- (map_length (fun i => Eqn (35 + 32 * (Z.of_nat i mod 2)) (repeat 65 i))); apply nth_error_Some; congruence).
  rewrite (map_nth_error _ _ _ (nth_error_seq 0 (s * r) i I)) in N. injection N as <-. cbn [Nat.add x_flag x_body].
  assert (SB : (s * r <= 20)%nat) by (destruct c; cbn [shape] in S; try discriminate S; injection S as <- <- <-; lia).
  split; [unfold is_byte; Z.div_mod_to_equations; lia|]. split; [reflexivity|]. split; [reflexivity|]. unfold zlen. rewrite repeat_length. lia.
Qed.
(** Loading the dictionary of a colour GDB: the GDB comes back but for the size word, the
    third byte, the plot byte, bit 7 with the grid, unnamed bits, the magic, and border 0. *)
Example C110_example : exists D, gdb_dict number1 number1 text1 (fun n => n) (gdb_entry KParam (gdb_bytes (sample KParam 134 9 255 0))) = oret D /\
  gdb_load_dict real1 fits1 load1 none0 D (gdb_entry KParam []) = oret (with_data (gdb_entry KParam []) (Buf true (gdb_bytes (gdb_again KParam (again1 KParam) x_body (sample KParam 134 9 255 0))))).
Proof.
  destruct (sample_shown KParam 134 9 255 0 3 6 2 eq_refl ltac:(unfold is_byte; lia) ltac:(unfold is_byte; lia) ltac:(unfold is_byte; lia) ltac:(lia)) as [A B]. destruct (sample_numbers KParam 134 9 255 0 3 6 2 eq_refl) as (js & N).
  apply (C110_reload real1 number1 number1 fits1 text1 load1 (fun n => n) none0 (gdb_entry KParam (gdb_bytes (sample KParam 134 9 255 0))) (gdb_entry KParam []) (sample KParam 134 9 255 0) js (again1 KParam) (fun i => repeat 65 i) x_body A eq_refl B); try reflexivity; try exact N; try exact (sample_texts KParam 134 9 255 0 3 6 2 eq_refl); try discriminate.
  intros i I. cbn in I. do 6 (destruct i as [|i]; [discriminate|]). lia.
Qed.
Example C110_example_seq : exists D, gdb_dict number1 number1 text1 (fun n => n) (gdb_entry KSeq (gdb_bytes (sample KSeq 3 3 5 2))) = oret D /\
  gdb_load_dict real1 fits1 load1 none0 D (gdb_entry KSeq []) = oret (with_data (gdb_entry KSeq []) (Buf true (gdb_bytes (gdb_again KSeq (again1 KSeq) x_body (sample KSeq 3 3 5 2))))) /\
  nth 6 (gdb_bytes (gdb_again KSeq (again1 KSeq) x_body (sample KSeq 3 3 5 2))) 0 = 5.
Proof.
  destruct (sample_shown KSeq 3 3 5 2 10 3 1 eq_refl ltac:(unfold is_byte; lia) ltac:(unfold is_byte; lia) ltac:(unfold is_byte; lia) ltac:(lia)) as [A B]. destruct (sample_numbers KSeq 3 3 5 2 10 3 1 eq_refl) as (js & N).
  destruct (C110_reload real1 number1 number1 fits1 text1 load1 (fun n => n) none0 (gdb_entry KSeq (gdb_bytes (sample KSeq 3 3 5 2))) (gdb_entry KSeq []) (sample KSeq 3 3 5 2) js (again1 KSeq) (fun i => repeat 65 i) x_body A eq_refl B) as (D & D1 & D2); try reflexivity; try exact N; try exact (sample_texts KSeq 3 3 5 2 10 3 1 eq_refl).
  - intros i I. cbn in I. do 3 (destruct i as [|i]; [discriminate|]). lia.
  - exists D. repeat split; assumption.
Qed.
Example C111_example : exists D, gdb_dict number1 number1 text1 (fun n => n) (gdb_entry KMonoFunc (gdb_bytes (sample KMonoFunc 0 0 0 1))) = oret D /\
  gdb_load_dict real1 fits1 load1 none0 D (gdb_entry KMonoFunc []) = oerr KeyError.
Proof.
  destruct (sample_shown KMonoFunc 0 0 0 1 1 10 1 eq_refl ltac:(unfold is_byte; lia) ltac:(unfold is_byte; lia) ltac:(unfold is_byte; lia) ltac:(lia)) as [A B]. destruct (sample_numbers KMonoFunc 0 0 0 1 1 10 1 eq_refl) as (js & N).
  apply (C111_mono real1 number1 number1 fits1 text1 load1 (fun n => n) none0 (gdb_entry KMonoFunc (gdb_bytes (sample KMonoFunc 0 0 0 1))) (gdb_entry KMonoFunc []) (sample KMonoFunc 0 0 0 1) js (again1 KMonoFunc) (fun i => repeat 65 i) x_body A eq_refl B); try reflexivity; [exact N|exact (sample_texts KMonoFunc 0 0 0 1 1 10 1 eq_refl)].
Qed.
Example C112_example : exists D, gdb_dict number1 number1 text1 (fun n => n) (gdb_entry KSeq (gdb_bytes (sample KSeq 0 1 0 1))) = oret D /\
  gdb_load_dict real1 fits1 load1 none0 D (gdb_entry KSeq []) = oerr KeyError.
Proof.
  destruct (sample_shown KSeq 0 1 0 1 10 3 1 eq_refl ltac:(unfold is_byte; lia) ltac:(unfold is_byte; lia) ltac:(unfold is_byte; lia) ltac:(lia)) as [A B]. destruct (sample_numbers KSeq 0 1 0 1 10 3 1 eq_refl) as (js & N).
  apply (C112_sequence real1 number1 number1 fits1 text1 load1 (fun n => n) none0 (gdb_entry KSeq (gdb_bytes (sample KSeq 0 1 0 1))) (gdb_entry KSeq []) (sample KSeq 0 1 0 1) js (again1 KSeq) (fun i => repeat 65 i) x_body A eq_refl B); try reflexivity; try exact N; try exact (sample_texts KSeq 0 1 0 1 10 3 1 eq_refl).
  intros i I. cbn in I. do 3 (destruct i as [|i]; [discriminate|]). lia.
Qed.
Example C109_example : exists j, equation_dict text1 (Geq (eqn_bytes (Eqn 60 [65; 66])) (Some [2]) (Some [5])) = oret j /\
  equation_load load1 j = oret (Geq (eqn_bytes (Eqn 35 [65; 66])) (Some [2]) (Some [5])).
Proof.
  destruct (C109_equation text1 load1 (Eqn 60 [65; 66]) 2 5 [65; 66] [65; 66]) as (j & A & B & _); try reflexivity; try (unfold is_byte; cbn; lia).
  exists j. split; [exact A|]. apply B; unfold named_style; lia.
Qed.
Example C109_example_mono : exists j, equation_dict text1 (Geq (eqn_bytes (Eqn 35 [65])) (Some [2]) (Some [0])) = oret j /\ equation_load load1 j = oerr KeyError.
Proof.
  destruct (C109_equation text1 load1 (Eqn 35 [65]) 2 0 [65] [65]) as (j & A & _ & B & _); try reflexivity; try (unfold is_byte; cbn; lia).
  exists j. split; [exact A|]. apply B; unfold named_style; lia.
Qed.
(** Such a GDB is not kept. *)
Theorem C110_loss_refuted : exists e e0 g D e', gdb_shown (e_cls e) g /\ names_fit g /\ e_data e = Buf true (gdb_bytes g) /\ e_cls e0 = e_cls e /\
  gdb_dict number1 number1 text1 (fun n => n) e = oret D /\ gdb_load_dict real1 fits1 load1 none0 D e0 = oret e' /\ calc_data e' <> calc_data e.
Proof.
  destruct (sample_shown KParam 134 9 255 0 3 6 2 eq_refl ltac:(unfold is_byte; lia) ltac:(unfold is_byte; lia) ltac:(unfold is_byte; lia) ltac:(lia)) as [A B]. destruct C110_example as (D & D1 & D2).
  exists (gdb_entry KParam (gdb_bytes (sample KParam 134 9 255 0))), (gdb_entry KParam []), (sample KParam 134 9 255 0), D. eexists. split; [exact A|]. split; [exact B|]. split; [|split; [|split; [exact D1|split; [exact D2|]]]]; try reflexivity. intros H. vm_compute in H. discriminate H.
Qed.
(** A kept GDB: the default itself. *)
Example C110_kept : gdb_kept KPolar (fun k => nth k (window KPolar) []) x_body (default_gdb KPolar) /\ ~ gdb_kept KParam (again1 KParam) x_body (sample KParam 134 9 255 0).
Proof.
  split.
  - exists 3%nat, 6%nat, 1%nat. eexists. eexists. split; [reflexivity|]. split; [reflexivity|]. split; [lia|]. split; [do 2 eexists; split; [reflexivity|]; split; [cbn; lia|reflexivity]|]. split; [repeat constructor|].
    split; [reflexivity|]. do 5 eexists. split; [reflexivity|]. lia.
  - intros (p & s & r & x & T & S & H & _). injection S as <- <- <-. discriminate H.
Qed.
(** The readings the defaults need exist. *)
Example C113_example : defaults_read real0 fits1 expr0 /\ exists e', gdb_load_dict real0 fits1 expr0 none0 (default_dict KFunc) (gdb_entry KFunc []) = oret e' /\ zlen (calc_data e') = 128.
Proof. split; [split; [repeat constructor|split; [repeat constructor|reflexivity]]|]. eexists. split; vm_compute; reflexivity. Qed.
Example C114_example : load_formats (map JStr (map s2l ["Dot"; "Grid"; "GridLine"; "AxesOff"; "dot"]%string)) (gdb_entry KFunc (zeros 128)) =
  ([WSettings; WSettings], Ok (gdb_entry KFunc (zeros 4 ++ [165] ++ zeros 123))).
Proof. vm_compute. reflexivity. Qed.
Example C114_example_equations : load_equations load1 [(s2l "r1", JNull); (s2l "Y11", JNull)] (gdb_entry KFunc (zeros 128)) = ([WSettings; WSettings], Ok (gdb_entry KFunc (zeros 128))).
Proof. apply C114_equations. cbn. intros n j [H | [H | []]]; injection H as <- <-; intros I; repeat (destruct I as [I | I]; [discriminate I|]); exact I. Qed.
Example C114_example_window : load_reals real1 fits1 none0 [(s2l "Zmin", JNum 1 0); (s2l "Xmin", JNum 1 0)] (gdb_entry KFunc (zeros 128)) =
  ([WSettings], Ok (gdb_entry KFunc (zeros 15 ++ [1] ++ zeros 112))).
Proof. vm_compute. reflexivity. Qed.
Print Assumptions C109_equation.
Print Assumptions C109_identity.
Print Assumptions C110_reload.
Print Assumptions C110_identity.
Print Assumptions C110_loss_refuted.
Print Assumptions C111_uncoloured.
Print Assumptions C111_mono.
Print Assumptions C112_sequence.
Print Assumptions C113_default.
Print Assumptions C113_sequence.
Print Assumptions C113_mono.
Print Assumptions C113_general.
Print Assumptions C113_general_param.
Print Assumptions C114_formats.
Print Assumptions C114_window.
Print Assumptions C114_equations.
