From Verif Require Import L_Base M_Data M_Flags M_Models M_Class M_Var M_Gdb M_GdbDict S_Data L_Data S_Var L_Models L_Var L_List S_Gdb L_Gdb P_Var P_Gdb S_GdbDict L_GdbDict.

(** ** All equations of a GDB *)
Definition eqn_at (g : gdb) (i : nat) : eqn := nth i (g_eqns g) (Eqn 0 []).
Definition style_at (c : cls) (g : gdb) (i : nat) : Z := nth (group_of c i) (g_styles g) 0.
Definition hue_at (c : cls) (g : gdb) (i : nat) : Z := color_at g (group_of c i).
Definition geq_at (c : cls) (g : gdb) (i : nat) : geq := Geq (eqn_bytes (eqn_at g i)) (Some [style_at c g i]) (Some [hue_at c g i]).
Lemma nth_error_seq a n i : (i < n)%nat -> nth_error (seq a n) i = Some (a + i)%nat.
Proof. revert a i. induction n as [|n IH]; intros a [|i] H; try lia; cbn; [f_equal; lia|]. rewrite IH by lia. f_equal. lia. Qed.
Lemma equations_seq c p s r g : shape c = Some (p, s, r) -> gdb_ok c g -> equations c (gdb_bytes g) = map (geq_at c g) (seq 0 (s * r)).
Proof.
  intros S OK. apply nth_error_ext. intros i. destruct (Nat.lt_ge_cases i (s * r)) as [L | G].
  - rewrite (equations_nth c p s r g i S OK L). rewrite (map_nth_error _ _ _ (nth_error_seq 0 (s * r) i L)). cbn [Nat.add]. unfold geq_at, eqn_at, style_at, hue_at.
    destruct (leads_eq c p s r i S) as [_ ->]. destruct (shape_facts c p s r S) as (_ & _ & _ & _ & R & _). rewrite (color_at_of c p s r g (i / r) S); [reflexivity|]. apply Nat.div_lt_upper_bound; lia.
  - rewrite !(proj2 (nth_error_None _ i)); [reflexivity| |]; rewrite ?map_length, ?seq_length, ?(equations_length c p s r g S OK); lia.
Qed.
Definition eq_name (c : cls) (i : nat) : str := nth i (equation_names c) [].
Lemma names_facts c p s r : shape c = Some (p, s, r) -> length (equation_names c) = (s * r)%nat /\ forall i, (i < s * r)%nat -> index_of (eq_name c i) (equation_names c) = Some i.
Proof.
  intros S. assert (C : forallb (fun i => match index_of (eq_name c i) (equation_names c) with Some j => Nat.eqb i j | None => false end) (seq 0 (s * r)) = true /\ length (equation_names c) = (s * r)%nat).
  { destruct c; cbn [shape] in S; try discriminate S; injection S as <- <- <-; split; vm_compute; reflexivity. }
  destruct C as [C L]. split; [exact L|]. intros i I. rewrite forallb_forall in C. specialize (C i (proj2 (in_seq _ _ _) (conj (Nat.le_0_l i) I))). cbv beta in C.
  destruct (index_of _ _); [|discriminate]. apply Nat.eqb_eq in C. now subst.
Qed.
Lemma combine_seq {A B} (f : nat -> B) (d : A) (l : list A) : forall a, combine l (map f (seq a (length l))) = map (fun i => (nth (i - a) l d, f i)) (seq a (length l)).
Proof.
  induction l as [|x l IH]; intros a; [reflexivity|]. cbn [length seq map combine]. rewrite IH. f_equal; [now rewrite Nat.sub_diag|]. apply map_ext_in. intros i Hi. apply in_seq in Hi.
  replace (i - a)%nat with (S (i - S a)) by lia. reflexivity.
Qed.

Section Eqs.
Variable expr_of : geq -> out str.
Variable load_expr : jv -> out bytes.
Variable json_name : str -> str.
Definition eq_json (c : cls) (g : gdb) (txt : nat -> str) (i : nat) : jv :=
  JObj ((s2l "style", name_of graph_style (style_at c g i)) :: (if hue_at c g i =? 0 then [] else [(s2l "color", name_of graph_color (hue_at c g i))]) ++
        [(s2l "flags", flags_json (x_flag (eqn_at g i))); (s2l "expr", JStr (txt i))]).
Lemma equation_dicts_ok c g txt is : Forall (fun i => is_byte (x_flag (eqn_at g i)) /\ expr_of (geq_at c g i) = oret (txt i) /\ json_name (eq_name c i) = eq_name c i) is ->
  equation_dicts expr_of json_name (map (fun i => (eq_name c i, geq_at c g i)) is) = oret (map (fun i => (eq_name c i, eq_json c g txt i)) is).
Proof.
  induction 1 as [|i is (B & X & J) F IH]; [reflexivity|]. cbn [map equation_dicts]. unfold geq_at at 1. rewrite (equation_dict_ok expr_of _ _ _ _ B X), obind_oret, IH, obind_oret, J. reflexivity.
Qed.
(** Loading equations one after the other. *)
Definition new_eqn (retext : eqn -> bytes) (q : eqn) : eqn := Eqn (flag_again (x_flag q)) (retext q).
Definition assign_all (c : cls) (retext : eqn -> bytes) (g : gdb) (is : list nat) (g1 : gdb) : gdb :=
  fold_left (fun g1 i => assign c i (new_eqn retext (eqn_at g i)) (style_at c g i) (hue_at c g i) g1) is g1.
Definition eq_fine (c : cls) (g : gdb) (txt : nat -> str) (retext : eqn -> bytes) (i : nat) : Prop :=
  is_byte (x_flag (eqn_at g i)) /\ load_expr (JStr (txt i)) = oret (le16 (zlen (retext (eqn_at g i))) ++ retext (eqn_at g i)) /\ zlen (retext (eqn_at g i)) < 65536.
Lemma load_equation_ok e c p s r g txt retext i g1 : e_cls e = c -> shape c = Some (p, s, r) -> gdb_ok c g1 -> (i < s * r)%nat -> eq_fine c g txt retext i ->
  named_style (style_at c g i) -> named_color (hue_at c g i) -> hue_at c g i <> 0 -> forall rest,
  load_equations load_expr ((eq_name c i, eq_json c g txt i) :: rest) (st e (gdb_bytes g1)) =
  load_equations load_expr rest (st e (gdb_bytes (assign c i (new_eqn retext (eqn_at g i)) (style_at c g i) (hue_at c g i) g1))).
Proof.
  intros E S OK I (B & X & LX) SV CV NZ rest. cbn [load_equations]. rewrite st_cls, E. destruct (names_facts c p s r S) as [_ IX]. rewrite (IX i I).
  unfold eq_json. rewrite (equation_load_ok load_expr _ _ _ _ _ B SV CV NZ X), obind_oret.
  assert (EQ : put_equation (st e (gdb_bytes g1)) i (Geq (eqn_bytes (new_eqn retext (eqn_at g i))) (Some [style_at c g i]) (Some [hue_at c g i])) = oret (st e (gdb_bytes (assign c i (new_eqn retext (eqn_at g i)) (style_at c g i) (hue_at c g i) g1)))).
  { rewrite (C59_set (st e (gdb_bytes g1)) g1); rewrite ?st_cls, ?E; [reflexivity|exact OK|reflexivity|]. destruct (colors_length c p s r g1 S OK) as (_ & _ & LE). lia. }
  change (flag_again (x_flag (eqn_at g i)) :: le16 (zlen (retext (eqn_at g i))) ++ retext (eqn_at g i)) with (eqn_bytes (new_eqn retext (eqn_at g i))). rewrite EQ, obind_oret. reflexivity.
Qed.
Lemma load_equations_ok e c p s r g txt retext : e_cls e = c -> shape c = Some (p, s, r) -> forall is g1, gdb_ok c g1 ->
  Forall (fun i => (i < s * r)%nat /\ eq_fine c g txt retext i /\ named_style (style_at c g i) /\ named_color (hue_at c g i) /\ hue_at c g i <> 0) is ->
  load_equations load_expr (map (fun i => (eq_name c i, eq_json c g txt i)) is) (st e (gdb_bytes g1)) = oret (st e (gdb_bytes (assign_all c retext g is g1))).
Proof.
  intros E S. induction is as [|i is IH]; intros g1 OK F; [reflexivity|]. apply Forall_cons_iff in F as ((I & FI & SV & CV & NZ) & F). cbn [map].
  rewrite (load_equation_ok e c p s r g txt retext i g1 E S OK I FI SV CV NZ). unfold assign_all. cbn [fold_left]. apply IH; [|exact F]. apply assign_ok; [exact OK|]. destruct FI as (_ & _ & L). exact L.
Qed.
(** The first equation without colour stops the loading. *)
Lemma load_equations_mono e c p s r g txt retext : e_cls e = c -> shape c = Some (p, s, r) -> forall is g1, gdb_ok c g1 ->
  Forall (fun i => (i < s * r)%nat /\ eq_fine c g txt retext i /\ named_style (style_at c g i) /\ named_color (hue_at c g i)) is -> Exists (fun i => hue_at c g i = 0) is ->
  load_equations load_expr (map (fun i => (eq_name c i, eq_json c g txt i)) is) (st e (gdb_bytes g1)) = oerr KeyError.
Proof.
  intros E S. induction is as [|i is IH]; intros g1 OK F X; [inversion X|]. apply Forall_cons_iff in F as ((I & FI & SV & CV) & F). cbn [map].
  destruct (Z.eq_dec (hue_at c g i) 0) as [Z0 | NZ].
  - cbn [load_equations]. rewrite st_cls, E. destruct (names_facts c p s r S) as [_ IX]. rewrite (IX i I). unfold eq_json. rewrite Z0. rewrite (equation_load_mono load_expr _ _ _ SV). reflexivity.
  - rewrite (load_equation_ok e c p s r g txt retext i g1 E S OK I FI SV CV NZ). apply IH; [|exact F|].
    + apply assign_ok; [exact OK|]. destruct FI as (_ & _ & L). exact L.
    + inversion X as [? ? H | ? ? H]; [contradiction|exact H].
Qed.
End Eqs.
(** All equations are written: the blank GDB has become the wanted one. *)
Lemma assign_all_blank c p s r retext g m fmt x nums : shape c = Some (p, s, r) -> gdb_ok c g -> (colour c = true -> g_tail g <> None) ->
  assign_all c retext g (seq 0 (s * r)) (blank c m fmt x nums) =
  Gdb (g_head (blank c m fmt x nums)) (g_styles g) (map (new_eqn retext) (g_eqns g))
      (if colour c then Some (Tail [56; 52; 67] (match g_tail g with Some t => t_colors t | None => [] end) (zeros 5)) else None).
Proof.
  intros S (p' & s' & r' & S' & LH & LS & LE & _ & TK) CT. rewrite S in S'. injection S' as <- <- <-.
  destruct g as [h ss qs tl]. cbn [g_head g_styles g_eqns g_tail] in *. destruct tl as [[mg co re]|].
  - destruct TK as (_ & LC & _). cbn [t_colors] in *.
    destruct c; cbn [shape] in S; try discriminate S; injection S as <- <- <-;
      repeat (destruct ss as [|? ss]; try discriminate LS); repeat (destruct qs as [|? qs]; try discriminate LE); repeat (destruct co as [|? co]; try discriminate LC); reflexivity.
  - destruct c; cbn [shape] in S; try discriminate S; injection S as <- <- <-; try (exfalso; now apply CT);
      repeat (destruct ss as [|? ss]; try discriminate LS); repeat (destruct qs as [|? qs]; try discriminate LE); reflexivity.
Qed.

(** ** The end of loading *)
Lemma coerce_colour e c a b z rest : colour c = true ->
  coerce_gdb (with_cls (st e (a :: b :: z :: mode_value c :: rest)) KGDB) = oret (with_cls (st e (a :: b :: z :: mode_value c :: rest)) c).
Proof.
  intros C. unfold coerce_gdb, calc_data. cbn [with_cls st with_data e_data b_data]. rewrite mode_id_cons. destruct c; try discriminate C; reflexivity.
Qed.
Lemma cls_st e d c : with_cls (st e d) c = st (with_cls e c) d. Proof. reflexivity. Qed.
Lemma cls_same e c : e_cls e = c -> with_cls e c = e. Proof. destruct e. cbn. intros ->. reflexivity. Qed.

(** The checks of parametric pairs never warn. *)
Lemma pair_check_quiet e c g i : e_cls e = c -> shape c = Some (3, 6, 2)%nat -> gdb_ok c g -> (i < 6)%nat -> pair_check (st e (gdb_bytes g)) i = oret tt.
Proof.
  intros E S OK I. unfold pair_check. rewrite st_cls, E. unfold calc_data. rewrite st_data. cbn [b_data]. unfold get_equation. rewrite (equations_seq c 3 6 2 g S OK).
  rewrite (map_nth_error _ _ _ (nth_error_seq 0 (6 * 2) (2 * i) ltac:(lia))), (map_nth_error _ _ _ (nth_error_seq 0 (6 * 2) (2 * i + 1) ltac:(lia))). cbn [Nat.add].
  rewrite olift_ok, obind_oret, olift_ok, obind_oret. unfold geq_at. cbn [q_style q_color].
  assert (G : group_of c (2 * i) = i /\ group_of c (2 * i + 1) = i).
  { unfold group_of. rewrite S. split; [rewrite Nat.mul_comm; apply Nat.div_mul; lia|]. rewrite Nat.add_comm, (Nat.mul_comm 2 i). rewrite Nat.div_add by lia. reflexivity. }
  unfold style_at, hue_at. destruct G as [-> ->].
  assert (Q : forall v, olift (rbind (slot (Some [v])) enum_get) = oret v) by reflexivity. rewrite !Q, !obind_oret, !Z.eqb_refl. reflexivity.
Qed.
Lemma pair_checks_quiet e c g : e_cls e = c -> shape c = Some (3, 6, 2)%nat -> gdb_ok c g -> pair_checks (num_styles c) 0 (st e (gdb_bytes g)) = oret tt.
Proof.
  intros E S OK. destruct (shape_facts c _ _ _ S) as (_ & -> & _). assert (P : forall n i, (i + n <= 6)%nat -> pair_checks n i (st e (gdb_bytes g)) = oret tt).
  { induction n as [|n IH]; intros i H; [reflexivity|]. cbn [pair_checks]. rewrite (pair_check_quiet e c g i E S OK) by lia. rewrite obind_oret. apply IH. lia. }
  apply P. lia.
Qed.

(** The colour part. *)
Definition colour_json (grid axes line border asym : Z) : jv :=
  JObj [ (s2l "colors", JObj [(s2l "grid", name_of graph_color grid); (s2l "axes", name_of graph_color axes); (s2l "border", JNum border 0)]);
         (s2l "other", JObj [(s2l "globalLineStyle", name_of line_style line); (s2l "detectAsymptotes", JBool (negb (Z.testbit asym 0)))]) ].
Lemma colour_facts c p s r : shape c = Some (p, s, r) -> colour c = true -> assoc (s2l "color_magic") (fields c) = Some (View (Some (- Z.of_nat (3 + s + 5))) (Some (- Z.of_nat (s + 5)))).
Proof. destruct c; cbn [shape colour]; intros S C; try discriminate; injection S as <- <- <-; reflexivity. Qed.
Lemma enum_back e (pre post : bytes) a b old x all : a = - (1 + zlen post) -> b = - zlen post -> 0 < zlen post -> enum_set all x = oret [x] ->
  set_enum_view (st e (pre ++ [old] ++ post)) (View (Some a) (Some b)) all x = oret (st e (pre ++ [x] ++ post)).
Proof.
  intros A B P E. unfold set_enum_view. rewrite E, st_data. change (@oret (list Z) [x]) with (@oret bytes [x]). rewrite (set_split (View (Some a) (Some b)) pre [old] post [x]); [reflexivity| |reflexivity]. apply (back_resolves pre [old]); auto.
Qed.
Lemma load_colors_ok e c p s r dct (P m3 cols : bytes) grid axes line border asym :
  e_cls e = c -> shape c = Some (p, s, r) -> colour c = true -> length m3 = 3%nat -> length cols = s ->
  named_color grid -> named_color axes -> 0 <= line <= 3 -> 0 <= border <= 4 -> is_byte asym ->
  jfind (s2l "global84CSettings") dct = Some (colour_json grid axes line border asym) ->
  load_colors dct (st e (P ++ m3 ++ cols ++ zeros 5)) = oret (st e (P ++ [56; 52; 67] ++ cols ++ [grid; axes; line; if border =? 0 then 4 else border; asym mod 2])).
Proof.
  intros E S C L3 LC NG NA NL NB NY J. destruct (shape_length c p s r S) as (CL & _). unfold load_colors. rewrite st_cls, E, (colour_facts c p s r S C).
  unfold set_field. rewrite st_cls, E, CL, st_data.
  rewrite (set_split _ P m3 (cols ++ zeros 5) (s2l "84C")); [|apply back_resolves; unfold zlen; rewrite ?app_length, ?L3, ?LC; change (length (zeros 5)) with 5%nat; lia|rewrite L3; reflexivity].
  rewrite !obind_oret. fold (st (st e (P ++ m3 ++ cols ++ zeros 5)) (P ++ s2l "84C" ++ cols ++ zeros 5)). change (st (st e ?a) ?b) with (st e b).
  unfold sub. rewrite J. unfold colour_json. rewrite olift_ok, obind_oret. change (s2l "84C") with [56; 52; 67]. set (M := P ++ [56; 52; 67] ++ cols).
  replace (P ++ [56; 52; 67] ++ cols ++ zeros 5) with (M ++ zeros 5) by (unfold M; rewrite <- !app_assoc; reflexivity).
  replace (P ++ [56; 52; 67] ++ cols ++ [grid; axes; line; if border =? 0 then 4 else border; asym mod 2]) with (M ++ [grid; axes; line; if border =? 0 then 4 else border; asym mod 2]) by (unfold M; rewrite <- !app_assoc; reflexivity).
  match goal with |- context [sub_if (s2l "colors") ?l] => set (L := l) end.
  change (sub_if (s2l "colors") L) with (Ok [(s2l "grid", name_of graph_color grid); (s2l "axes", name_of graph_color axes); (s2l "border", JNum border 0)]).
  change (sub_if (s2l "other") L) with (Ok [(s2l "globalLineStyle", name_of line_style line); (s2l "detectAsymptotes", JBool (negb (Z.testbit asym 0)))]).
  rewrite !olift_ok, obind_oret. destruct (color_back grid NG) as (s1 & -> & A1 & E1). destruct (color_back axes NA) as (s2 & -> & A2 & E2). destruct (line_back line NL) as (s3 & -> & A3 & E3). destruct (border_back border NB) as [A4 E4].
  match goal with |- context [load_enum (s2l "grid") _ _ _ ?l] => set (K := l) end. unfold load_enum.
  change (jfind (s2l "grid") K) with (Some (JStr s1)). change (jfind (s2l "axes") K) with (Some (JStr s2)). change (jfind (s2l "border") K) with (Some (JNum border 0)). cbv iota beta.
  rewrite A1, olift_ok, obind_oret. change (M ++ zeros 5) with (M ++ [0] ++ zeros 4). rewrite (enum_back e M (zeros 4) (-5) (-4) 0 grid graph_colors eq_refl eq_refl eq_refl E1), obind_oret.
  rewrite A2, olift_ok, obind_oret. replace (M ++ [grid] ++ zeros 4) with ((M ++ [grid]) ++ [0] ++ zeros 3) by (rewrite <- app_assoc; reflexivity). rewrite (enum_back e (M ++ [grid]) (zeros 3) (-4) (-3) 0 axes graph_colors eq_refl eq_refl eq_refl E2), obind_oret.
  rewrite A4, olift_ok, obind_oret. replace ((M ++ [grid]) ++ [axes] ++ zeros 3) with ((M ++ [grid; axes; 0]) ++ [0] ++ [0]) by (rewrite <- !app_assoc; reflexivity).
  rewrite (enum_back e (M ++ [grid; axes; 0]) [0] (-2) (-1) 0 _ border_colors eq_refl eq_refl eq_refl E4), obind_oret, obind_oret.
  match goal with |- context [jfind (s2l "globalLineStyle") ?l] => set (O := l) end. change (jfind (s2l "globalLineStyle") O) with (Some (JStr s3)). change (jfind (s2l "detectAsymptotes") O) with (Some (JBool (negb (Z.testbit asym 0)))). cbv iota beta.
  rewrite A3, olift_ok, obind_oret. set (b4 := if border =? 0 then 4 else border) in *. replace ((M ++ [grid; axes; 0]) ++ [b4] ++ [0]) with ((M ++ [grid; axes]) ++ [0] ++ [b4; 0]) by (rewrite <- !app_assoc; reflexivity).
  rewrite (enum_back e (M ++ [grid; axes]) [b4; 0] (-3) (-2) 0 line (map snd line_style) eq_refl eq_refl eq_refl E3), obind_oret.
  cbn [truthy]. destruct (asym_bit asym NY) as [_ MX]. replace ((M ++ [grid; axes]) ++ [line] ++ [b4; 0]) with ((M ++ [grid; axes; line; b4]) ++ [0] ++ []) by (rewrite <- !app_assoc; reflexivity).
  rewrite (merge_split e color_mode_view _ (M ++ [grid; axes; line; b4]) [] 0 (asym mod 2)); [|apply (last_resolves _ [0]); reflexivity|exact MX]. rewrite <- !app_assoc. reflexivity.
Qed.
(** Showing the colour part. *)
Lemma get_back e (pre post : bytes) a b old : a = - (1 + zlen post) -> b = - zlen post -> 0 < zlen post -> get_field (st e (pre ++ [old] ++ post)) (View (Some a) (Some b)) = [old].
Proof. intros A B P. unfold get_field. rewrite st_data. apply get_split. apply (back_resolves pre [old]); auto. Qed.
Lemma color_dict_ok e (M : bytes) grid axes line border asym : is_byte asym ->
  color_dict (st e (M ++ [grid; axes; line; border; asym])) = oret [(s2l "global84CSettings", colour_json grid axes line border asym)].
Proof.
  intros B. unfold color_dict.
  assert (G1 : get_field (st e (M ++ [grid; axes; line; border; asym])) (View (Some (-5)) (Some (-4))) = [grid]) by (apply (get_back e M [axes; line; border; asym]); reflexivity).
  assert (G2 : get_field (st e (M ++ [grid; axes; line; border; asym])) (View (Some (-4)) (Some (-3))) = [axes]).
  { replace (M ++ [grid; axes; line; border; asym]) with ((M ++ [grid]) ++ [axes] ++ [line; border; asym]) by (rewrite <- app_assoc; reflexivity). apply get_back; reflexivity. }
  assert (G3 : get_field (st e (M ++ [grid; axes; line; border; asym])) (View (Some (-3)) (Some (-2))) = [line]).
  { replace (M ++ [grid; axes; line; border; asym]) with ((M ++ [grid; axes]) ++ [line] ++ [border; asym]) by (rewrite <- app_assoc; reflexivity). apply get_back; reflexivity. }
  assert (G4 : get_field (st e (M ++ [grid; axes; line; border; asym])) (View (Some (-2)) (Some (-1))) = [border]).
  { replace (M ++ [grid; axes; line; border; asym]) with ((M ++ [grid; axes; line]) ++ [border] ++ [asym]) by (rewrite <- app_assoc; reflexivity). apply get_back; reflexivity. }
  assert (G5 : get_field (st e (M ++ [grid; axes; line; border; asym])) color_mode_view = [asym]).
  { unfold get_field. rewrite st_data. replace (M ++ [grid; axes; line; border; asym]) with ((M ++ [grid; axes; line; border]) ++ [asym] ++ []) by (rewrite <- app_assoc; reflexivity). apply get_split. apply (last_resolves _ [asym]); reflexivity. }
  rewrite G1, G2, G3, G4, G5. change (enum_get [grid]) with (Ok grid). change (enum_get [axes]) with (Ok axes). change (enum_get [line]) with (Ok line). change (enum_get [border]) with (Ok border).
  destruct (asym_bit asym B) as [-> _]. rewrite !olift_ok, !obind_oret. reflexivity.
Qed.

(** ** Sequence settings *)
Definition seq_constant (t : str) : option flags :=
  if leqb t (s2l "SEQ(n)") then Some (const graph_mode "SEQ_n")
  else if leqb t (s2l "SEQ(n+1)") then Some (const graph_mode "SEQ_np1")
  else if leqb t (s2l "SEQ(n+2)") then Some (const graph_mode "SEQ_np2") else None.
Lemma seq_ext x : is_byte x -> exists o, first_in seq_exts [x] = Ok o /\
  match o with
  | Some t => exists bits, seq_constant t = Some bits /\ merged bits (x mod 2) = Some (ext_again KSeq x)
  | None => x mod 2 = ext_again KSeq x
  end.
Proof.
  intros B. pose proof (by_bytes (fun x => match first_in seq_exts [x] with Ok (Some t) => match seq_constant t with Some bits => match merged bits (x mod 2) with Some y => y =? ext_again KSeq x | None => false end | None => false end
    | Ok None => x mod 2 =? ext_again KSeq x | Err _ => false end) ltac:(vm_compute; reflexivity) x B) as H. cbv beta in H.
  destruct (first_in seq_exts [x]) as [[t|]|]; try discriminate H; eexists; (split; [reflexivity|]); [|now apply Z.eqb_eq].
  destruct (seq_constant t) as [bits|] eqn:SC; [|discriminate]. exists bits. split; [exact SC|]. destruct (merged bits (x mod 2)); [|discriminate]. apply Z.eqb_eq in H. now subst.
Qed.
Lemma seq_kind_ok b : is_byte b -> exists o, first_in seq_kinds [b] = Ok o /\ (if named_kind b then o <> None else o = None).
Proof.
  intros B. pose proof (by_bytes (fun b => match first_in seq_kinds [b] with Ok o => Bool.eqb (named_kind b) (match o with Some _ => true | None => false end) | Err _ => false end) ltac:(vm_compute; reflexivity) b B) as H. cbv beta in H.
  destruct (first_in seq_kinds [b]) as [o|]; [|discriminate]. exists o. split; [reflexivity|]. apply Bool.eqb_prop in H. rewrite H. destruct o; cbn; [discriminate|reflexivity].
Qed.
Lemma load_sequence_ok e dct ext a b z m f sq x R : is_byte x ->
  jfind (s2l "extSettings") dct = Some (JObj ext) -> jfind (s2l "seqSettings") dct = None ->
  (exists o, first_in seq_exts [x] = Ok o /\ jfind (s2l "seqMode") ext = option_map JStr o) ->
  load_sequence dct (st e (a :: b :: z :: m :: f :: sq :: x mod 2 :: R)) = oret (st e (a :: b :: z :: m :: f :: sq :: ext_again KSeq x :: R)).
Proof.
  intros B J1 J2 (o & O & J3). destruct (seq_ext x B) as (o' & O' & H). rewrite O in O'. injection O' as <-. unfold load_sequence, sub. rewrite J1, olift_ok, obind_oret, J3, J2.
  destruct o as [t|]; cbn [option_map].
  - destruct H as (bits & C & M).
    assert (Q : on_data (st e (a :: b :: z :: m :: f :: sq :: x mod 2 :: R)) (merge_flags ext_view bits) = oret (st e (a :: b :: z :: m :: f :: sq :: ext_again KSeq x :: R))).
    { exact (merge_split e ext_view bits [a; b; z; m; f; sq] R (x mod 2) _ (front_resolves [a; b; z; m; f; sq] [x mod 2] R 6 7 eq_refl eq_refl) M). }
    unfold seq_constant in C. destruct (leqb t (s2l "SEQ(n)")); [injection C as <-; rewrite Q, obind_oret; reflexivity|].
    destruct (leqb t (s2l "SEQ(n+1)")); [injection C as <-; rewrite Q, obind_oret; reflexivity|]. destruct (leqb t (s2l "SEQ(n+2)")); [injection C as <-; rewrite Q, obind_oret; reflexivity|discriminate].
  - rewrite H, obind_oret. reflexivity.
Qed.
Lemma load_sequence_err e dct ext a b z m f sq x R k : is_byte x ->
  jfind (s2l "extSettings") dct = Some (JObj ext) -> jfind (s2l "seqSettings") dct = Some k -> jfind (s2l "seqMode") dct = None ->
  (exists o, first_in seq_exts [x] = Ok o /\ jfind (s2l "seqMode") ext = option_map JStr o) ->
  load_sequence dct (st e (a :: b :: z :: m :: f :: sq :: x mod 2 :: R)) = oerr KeyError.
Proof.
  intros B J1 J2 J4 (o & O & J3). destruct (seq_ext x B) as (o' & O' & H). rewrite O in O'. injection O' as <-. unfold load_sequence, sub, field. rewrite J1, olift_ok, obind_oret, J3, J2, J4.
  destruct o as [t|]; cbn [option_map].
  - destruct H as (bits & C & M).
    assert (Q : on_data (st e (a :: b :: z :: m :: f :: sq :: x mod 2 :: R)) (merge_flags ext_view bits) = oret (st e (a :: b :: z :: m :: f :: sq :: ext_again KSeq x :: R))).
    { exact (merge_split e ext_view bits [a; b; z; m; f; sq] R (x mod 2) _ (front_resolves [a; b; z; m; f; sq] [x mod 2] R 6 7 eq_refl eq_refl) M). }
    unfold seq_constant in C. destruct (leqb t (s2l "SEQ(n)")); [injection C as <-; rewrite Q, obind_oret; reflexivity|].
    destruct (leqb t (s2l "SEQ(n+1)")); [injection C as <-; rewrite Q, obind_oret; reflexivity|]. destruct (leqb t (s2l "SEQ(n+2)")); [injection C as <-; rewrite Q, obind_oret; reflexivity|discriminate].
  - rewrite obind_oret. reflexivity.
Qed.

(** ** The dictionary *)
Definition mode_json (c : cls) : str :=
  match c with KMonoParam | KParam => s2l "Parametric" | KMonoPolar | KPolar => s2l "Polar" | KMonoSeq | KSeq => s2l "Sequence" | _ => s2l "Function" end.
Lemma mode_json_ok c p s r : shape c = Some (p, s, r) -> name_of mode_names (mode_value c) = JStr (mode_json c) /\ assoc (mode_json c) mode_names = Some (mode_value c).
Proof. destruct c; cbn [shape]; intros S; try discriminate S; split; reflexivity. Qed.
Definition gdb_json (c : cls) (fl : list jv) (x : Z) (ext kinds : list (str * jv)) (js : nat -> jv) (Q : list (str * jv)) (glob : list (str * jv)) : list (str * jv) :=
  [ (s2l "graphMode", JStr (mode_json c)); (s2l "formatSettings", JArr fl);
    (s2l "extSettings", JObj ((s2l "showExpr", JBool (negb (Z.testbit x 0))) :: ext));
    (s2l "globalWindowSettings", JObj (map (fun k => (name_at c k, js k)) (seq 0 6))) ] ++ kinds ++
  [ (s2l "specificData", JObj [(s2l "settings", JObj (map (fun k => (name_at c k, js k)) (positions c))); (s2l "equations", JObj Q)]) ] ++ glob.
Section Dict.
Variable number_of whole_of : bytes -> out jv.
Variable expr_of : geq -> out str.
Variable json_name : str -> str.
Definition number_shows (c : cls) (h : bytes) (js : nat -> jv) (k : nat) : Prop :=
  (if whole_at c k then whole_of else number_of) (number_at h (shown_at c k)) = oret (js k).
Lemma front_byte e (pre post : bytes) x a b : a = zlen pre -> b = a + 1 -> get_field (st e (pre ++ [x] ++ post)) (View (Some a) (Some b)) = [x].
Proof. intros A B. unfold get_field. rewrite st_data. apply get_split. apply (front_resolves pre [x] post); [exact A|]. rewrite B, A. reflexivity. Qed.
Lemma common_ok e c p s r a b z f sq x T rest fl js ext : let h := a :: b :: z :: mode_value c :: f :: sq :: x :: T in
  e_cls e = c -> shape c = Some (p, s, r) -> length h = (61 + 9 * p)%nat -> is_byte x -> format_texts [f] = Ok fl ->
  (forall k, (k < 6 + p)%nat -> number_shows c h js k) ->
  common number_of whole_of (st e (h ++ rest)) ext =
  oret [ (s2l "graphMode", JStr (mode_json c)); (s2l "formatSettings", JArr fl);
         (s2l "extSettings", JObj ((s2l "showExpr", JBool (negb (Z.testbit x 0))) :: ext));
         (s2l "globalWindowSettings", JObj (map (fun k => (name_at c k, js k)) (seq 0 6))) ].
Proof.
  intros h E S L BX F N. unfold common, mode_text, calc_data. rewrite st_data. cbn [b_data].
  assert (MI : gdb_mode_id (h ++ rest) = mode_value c) by apply mode_id_cons. rewrite MI. destruct (mode_json_ok c p s r S) as [-> _]. rewrite obind_oret.
  rewrite (front_byte e [a; b; z; mode_value c] (sq :: x :: T ++ rest) f 4 5 eq_refl eq_refl : get_field (st e (h ++ rest)) mode_view = [f]). rewrite F, olift_ok, obind_oret.
  rewrite (front_byte e [a; b; z; mode_value c; f; sq] (T ++ rest) x 6 7 eq_refl eq_refl : get_field (st e (h ++ rest)) ext_view = [x]). destruct (expr_bit x BX) as [-> _]. rewrite olift_ok, obind_oret.
  destruct (keys_at c p s r S) as (_ & -> & _). rewrite (shown_reals_ok number_of whole_of e c p s r h rest js E S L); [rewrite obind_oret; reflexivity|].
  apply Forall_forall. intros k Hk. apply in_seq in Hk. assert (K : (k < 6 + p)%nat) by lia. split; [exact K|exact (N k K)].
Qed.
Lemma specific_ok e c p s r g js txt : e_cls e = c -> shape c = Some (p, s, r) -> gdb_ok c g ->
  (forall k, (k < 6 + p)%nat -> number_shows c (g_head g) js k) ->
  (forall i, (i < s * r)%nat -> is_byte (x_flag (eqn_at g i)) /\ expr_of (geq_at c g i) = oret (txt i) /\ json_name (eq_name c i) = eq_name c i) ->
  specific number_of whole_of expr_of json_name (st e (gdb_bytes g)) =
  oret [(s2l "specificData", JObj [(s2l "settings", JObj (map (fun k => (name_at c k, js k)) (positions c))); (s2l "equations", JObj (map (fun i => (eq_name c i, eq_json c g txt i)) (seq 0 (s * r))))])].
Proof.
  intros E S OK N Q. pose proof OK as (p' & s' & r' & S' & LH & _). rewrite S in S'. injection S' as <- <- <-. unfold specific. rewrite st_cls, E.
  destruct (keys_at c p s r S) as (-> & _ & FP). unfold gdb_bytes at 1.
  rewrite (shown_reals_ok number_of whole_of e c p s r (g_head g) _ js E S LH).
  2:{ rewrite Forall_forall in FP. apply Forall_forall. intros k Hk. specialize (FP k Hk). split; [exact FP|exact (N k FP)]. }
  rewrite obind_oret. unfold calc_data. rewrite st_data. cbn [b_data]. rewrite (equations_seq c p s r g S OK). destruct (names_facts c p s r S) as [LN _].
  assert (CS : combine (equation_names c) (map (geq_at c g) (seq 0 (s * r))) = map (fun i => (eq_name c i, geq_at c g i)) (seq 0 (s * r))).
  { rewrite <- LN. etransitivity; [exact (combine_seq (geq_at c g) ([] : str) (equation_names c) 0)|]. apply map_ext. intros i. unfold eq_name. now rewrite Nat.sub_0_r. }
  rewrite CS.
  rewrite (equation_dicts_ok expr_of json_name c g txt); [rewrite obind_oret; reflexivity|]. apply Forall_forall. intros i Hi. apply in_seq in Hi. apply Q. lia.
Qed.
(** The extra items of sequence GDBs. *)
Definition seq_items (c : cls) (sq x : Z) (ext kinds : list (str * jv)) : Prop :=
  if is_seq c then exists o k, first_in seq_exts [x] = Ok o /\ first_in seq_kinds [sq] = Ok k /\
    ext = match o with Some t => [(s2l "seqMode", JStr t)] | None => [] end /\
    kinds = match k with Some t => [(s2l "seqSettings", JObj [(s2l "mode", JStr t)])] | None => [] end
  else ext = [] /\ kinds = [].
Lemma seq_items_ex c sq x : is_byte sq -> is_byte x -> exists ext kinds, seq_items c sq x ext kinds.
Proof.
  intros B1 B2. unfold seq_items. destruct (is_seq c); [|now exists [], []]. destruct (seq_ext x B2) as (o & O & _). destruct (seq_kind_ok sq B1) as (k & K & _).
  do 2 eexists. exists o, k. repeat split; assumption.
Qed.
Lemma mono_dict_ok e c p s r g a b z f sq x T fl js txt ext kinds : g_head g = a :: b :: z :: mode_value c :: f :: sq :: x :: T ->
  e_cls e = c -> shape c = Some (p, s, r) -> gdb_ok c g -> is_byte x -> format_texts [f] = Ok fl ->
  (forall k, (k < 6 + p)%nat -> number_shows c (g_head g) js k) ->
  (forall i, (i < s * r)%nat -> is_byte (x_flag (eqn_at g i)) /\ expr_of (geq_at c g i) = oret (txt i) /\ json_name (eq_name c i) = eq_name c i) ->
  seq_items c sq x ext kinds ->
  mono_dict number_of whole_of expr_of json_name (st e (gdb_bytes g)) = oret (gdb_json c fl x ext kinds js (map (fun i => (eq_name c i, eq_json c g txt i)) (seq 0 (s * r))) []).
Proof.
  intros H E S OK BX F N Q I. pose proof OK as (p' & s' & r' & S' & LH & _). rewrite S in S'. injection S' as <- <- <-.
  assert (C : forall ext, common number_of whole_of (st e (gdb_bytes g)) ext = oret _) by (intros ext'; unfold gdb_bytes; rewrite H in *; exact (common_ok e c p s r a b z f sq x T _ fl js ext' E S LH BX F N)).
  pose proof (specific_ok e c p s r g js txt E S OK N Q) as SP. unfold mono_dict. rewrite st_cls, E.
  unfold seq_items in I. destruct (is_seq c) eqn:SQ.
  - destruct I as (o & k & O & K & -> & ->).
    assert (G1 : get_field (st e (gdb_bytes g)) ext_view = [x]) by (unfold gdb_bytes; rewrite H; exact (front_byte e [a; b; z; mode_value c; f; sq] (T ++ _) x 6 7 eq_refl eq_refl)).
    assert (G2 : get_field (st e (gdb_bytes g)) seq_view = [sq]) by (unfold gdb_bytes; rewrite H; exact (front_byte e [a; b; z; mode_value c; f] (x :: T ++ _) sq 5 6 eq_refl eq_refl)).
    destruct c; try discriminate SQ; rewrite C, obind_oret, G1, O, olift_ok, obind_oret, G2, K, olift_ok, obind_oret; cbv zeta; rewrite SP, obind_oret; destruct o, k; reflexivity.
  - destruct I as [-> ->]. destruct c; cbn [shape] in S; try discriminate S; try discriminate SQ; rewrite C, obind_oret, SP, obind_oret; reflexivity.
Qed.
End Dict.

(** ** From the dictionary back *)
Lemma jfind_json c fl x ext kinds js Q glob c' sq : seq_items c' sq x ext kinds ->
  let D := gdb_json c fl x ext kinds js Q glob in
  jfind (s2l "graphMode") D = Some (JStr (mode_json c)) /\ jfind (s2l "formatSettings") D = Some (JArr fl) /\
  jfind (s2l "extSettings") D = Some (JObj ((s2l "showExpr", JBool (negb (Z.testbit x 0))) :: ext)) /\
  jfind (s2l "globalWindowSettings") D = Some (JObj (map (fun k => (name_at c k, js k)) (seq 0 6))) /\
  jfind (s2l "specificData") D = Some (JObj [(s2l "settings", JObj (map (fun k => (name_at c k, js k)) (positions c))); (s2l "equations", JObj Q)]) /\
  jfind (s2l "global84CSettings") D = jfind (s2l "global84CSettings") glob /\
  (jfind (s2l "seqSettings") glob = None -> jfind (s2l "seqSettings") D = jfind (s2l "seqSettings") kinds) /\
  (jfind (s2l "seqMode") glob = None -> jfind (s2l "seqMode") D = None).
Proof.
  intros I D. unfold D, gdb_json.
  assert (K : kinds = [] \/ exists j, kinds = [(s2l "seqSettings", j)]).
  { unfold seq_items in I. destruct (is_seq c'); [|left; apply I]. destruct I as (o & k & _ & _ & _ & ->). destruct k; [right; eexists; reflexivity|left; reflexivity]. }
  destruct K as [-> | (j & ->)]; repeat split; intros; assumption || reflexivity.
Qed.

(** ** Loading depends on the numbers and texts of the dictionary only *)
Lemma obind_same {A B} (m : out A) (f g : A -> out B) : (forall w a, m = (w, Ok a) -> f a = g a) -> obind m f = obind m g.
Proof. intros H. unfold obind. destruct m as [w [a|]]; [|reflexivity]. now rewrite (H w a eq_refl). Qed.
Section Same.
Variable real_of real_of' : jv -> out bytes.
Variable misfit misfit' : str -> bytes -> bool.
Variable load_expr load_expr' : jv -> out bytes.
Variable other_attr other_attr' : entry -> str -> jv -> option (out entry).
Definition same_reals (l : list (str * jv)) : Prop :=
  Forall (fun p => real_of (snd p) = real_of' (snd p) /\ (forall x, real_of (snd p) = oret x -> misfit (fst p) x = misfit' (fst p) x) /\ exists x, real_of (snd p) = oret x) l.
Hypothesis OA : forall e n j, other_attr e n j = other_attr' e n j.
Lemma load_reals_same l : same_reals l -> forall e, load_reals real_of misfit other_attr l e = load_reals real_of' misfit' other_attr' l e.
Proof.
  induction 1 as [|[n j] l (A & B & x & X) F IH]; intros e; [reflexivity|]. cbn [load_reals fst snd] in *. destruct (real_view (e_cls e) n) as [v|].
  - rewrite <- A, X, !obind_oret, (B x X). destruct (owarn_if (misfit' n x) WGraphReal) as [w [[]|]]; [|reflexivity]. unfold obind. destruct (set_field e v x) as [w1 [e1|]]; [|reflexivity]. now rewrite IH.
  - rewrite <- OA. destruct (other_attr e n j) as [m|]; [|now rewrite IH]. unfold obind. destruct m as [w1 [e1|]]; [|reflexivity]. now rewrite IH.
Qed.
Definition same_texts (l : list (str * jv)) : Prop :=
  Forall (fun p => match snd p with JObj q => match jfind (s2l "expr") q with Some x => load_expr x = load_expr' x | None => True end | _ => True end) l.
Lemma equation_load_same j : match j with JObj q => match jfind (s2l "expr") q with Some x => load_expr x = load_expr' x | None => True end | _ => True end ->
  equation_load load_expr j = equation_load load_expr' j.
Proof.
  intros H. unfold equation_load. apply obind_same. intros ? l L. destruct j as [| | | | |q]; try discriminate L. injection L as _ <-.
  do 4 (apply obind_same; intros). apply obind_same. intros ? x X. unfold field in X. destruct (jfind (s2l "expr") q) as [y|]; [|discriminate X]. injection X as _ <-. now rewrite H.
Qed.
Lemma load_equations_same l : same_texts l -> forall e, load_equations load_expr l e = load_equations load_expr' l e.
Proof.
  induction 1 as [|[n j] l A F IH]; intros e; [reflexivity|]. cbn [load_equations fst snd] in *. destruct (index_of n (equation_names (e_cls e))) as [i|]; [|now rewrite IH].
  rewrite (equation_load_same j A). unfold obind. destruct (equation_load load_expr' j) as [w [q|]]; [|reflexivity]. destruct (put_equation e i q) as [w1 [e1|]]; [|reflexivity]. now rewrite IH.
Qed.
Definition obj_of (k : str) (l : list (str * jv)) : list (str * jv) := match jfind k l with Some (JObj l) => l | _ => [] end.
Lemma sub_obj err k D w a : olift (sub err k D) = (w, Ok a) -> a = obj_of k D.
Proof. unfold sub, obj_of. destruct (jfind k D) as [[]|]; unfold olift; intros H; inversion H; reflexivity. Qed.
Lemma gdb_load_same D e :
  same_reals (obj_of (s2l "globalWindowSettings") D) -> same_reals (obj_of (s2l "settings") (obj_of (s2l "specificData") D)) -> same_texts (obj_of (s2l "equations") (obj_of (s2l "specificData") D)) ->
  gdb_load_dict real_of misfit load_expr other_attr D e = gdb_load_dict real_of' misfit' load_expr' other_attr' D e.
Proof.
  intros R1 R2 T. unfold gdb_load_dict. do 8 (apply obind_same; intros).
  apply obind_same. intros ? ww W. assert (ww = obj_of (s2l "globalWindowSettings") D) as -> by exact (sub_obj _ _ _ _ _ W).
  rewrite (load_reals_same _ R1). apply obind_same. intros. apply obind_same. intros ? sp SP. assert (sp = obj_of (s2l "specificData") D) as -> by exact (sub_obj _ _ _ _ _ SP).
  apply obind_same. intros ? w' W'. set (S := obj_of (s2l "specificData") D) in *. assert (w' = obj_of (s2l "settings") S) as -> by exact (sub_obj _ _ _ _ _ W').
  rewrite (load_reals_same _ R2). apply obind_same. intros. apply obind_same. intros ? q Q. assert (q = obj_of (s2l "equations") S) as -> by exact (sub_obj _ _ _ _ _ Q).
  rewrite (load_equations_same _ T). reflexivity.
Qed.
End Same.

(** ** The layout is unambiguous *)
Lemma app_split {A} (a b c d : list A) : length a = length c -> a ++ b = c ++ d -> a = c /\ b = d.
Proof.
  revert c. induction a as [|x a IH]; intros [|y c] L E; try discriminate L; [now split|]. cbn in *. injection E as <- E. injection L as L. destruct (IH c L E) as [-> ->]. now split.
Qed.
Lemma le16_inj a b : 0 <= a < 65536 -> 0 <= b < 65536 -> le16 a = le16 b -> a = b.
Proof. intros A B. unfold le16. cbn [le_bytes]. intros H. injection H as H1 H2. Z.div_mod_to_equations; lia. Qed.
Lemma eqns_inj l1 : forall l2 X Y, length l1 = length l2 -> Forall eqn_ok l1 -> Forall eqn_ok l2 -> concat (map eqn_bytes l1) ++ X = concat (map eqn_bytes l2) ++ Y -> l1 = l2 /\ X = Y.
Proof.
  induction l1 as [|[f1 b1] l1 IH]; intros [|[f2 b2] l2] X Y L F1 F2 E; try discriminate L; [now split|]. apply Forall_cons_iff in F1 as [A1 F1]. apply Forall_cons_iff in F2 as [A2 F2].
  cbn [map concat] in E. unfold eqn_bytes at 1 3 in E. unfold eqn_ok in A1, A2. cbn [x_flag x_body] in *. rewrite <- !app_assoc in E. cbn [app] in E. pose proof (f_equal (hd 0) E) as E0. apply (f_equal (@List.tl Z)) in E. cbn [hd List.tl] in E0, E. subst f2. rewrite <- !app_assoc in E.
  apply app_split in E as [E1 E]; [|reflexivity]. assert (N : zlen b1 = zlen b2) by (apply le16_inj; [unfold zlen in *; lia|unfold zlen in *; lia|exact E1]). apply app_split in E as [<- E]; [|unfold zlen in N; lia].
  cbn in L. destruct (IH l2 X Y ltac:(lia) F1 F2 E) as [-> ->]. now split.
Qed.
Lemma gdb_inj c g1 g2 : gdb_ok c g1 -> gdb_ok c g2 -> (g_tail g1 = None <-> g_tail g2 = None) -> gdb_bytes g1 = gdb_bytes g2 -> g1 = g2.
Proof.
  intros (p & s & r & S & LH & LS & LE & FE & TK) (p' & s' & r' & S' & LH' & LS' & LE' & FE' & TK') T E. rewrite S in S'. injection S' as <- <- <-.
  destruct g1 as [h1 s1 q1 t1], g2 as [h2 s2 q2 t2]. unfold gdb_bytes in E. cbn [g_head g_styles g_eqns g_tail] in *.
  apply app_split in E as [-> E]; [|congruence]. apply app_split in E as [-> E]; [|congruence]. apply eqns_inj in E as [-> E]; [|congruence|assumption|assumption].
  f_equal. destruct t1 as [[m1 c1 r1]|], t2 as [[m2 c2 r2]|]; try reflexivity; [|destruct T as [_ T]; discriminate (T eq_refl)|destruct T as [T _]; discriminate (T eq_refl)].
  cbn [t_magic t_colors t_rest tail_bytes] in *. destruct TK as (A & B & C), TK' as (A' & B' & C'). apply app_split in E as [-> E]; [|congruence]. apply app_split in E as [-> ->]; [|congruence]. reflexivity.
Qed.
Lemma eqns_too_long l : forall qs X f lo hi R, (length l < length qs)%nat -> Forall eqn_ok l -> Forall eqn_ok qs -> 0 <= lo < 256 ->
  concat (map eqn_bytes qs) ++ X = concat (map eqn_bytes l) ++ f :: lo :: hi :: R -> lo + 256 * hi <= zlen R.
Proof.
  induction l as [|[f1 b1] l IH]; intros [|[f2 b2] qs] X f lo hi R L F1 F2 B E; try (cbn in L; lia).
  - cbn [map concat app] in E. unfold eqn_bytes at 1, le16 in E. cbn [x_flag x_body le_bytes app] in E. injection E as _ E1 E2 E. subst R. unfold zlen. rewrite !app_length. apply Forall_cons_iff in F2 as [A2 _]. unfold eqn_ok, zlen in *. cbn [x_body] in *. Z.div_mod_to_equations; lia.
  - apply Forall_cons_iff in F1 as [A1 F1]. apply Forall_cons_iff in F2 as [A2 F2]. cbn [map concat] in E. unfold eqn_bytes at 1 3 in E. unfold eqn_ok in A1, A2. cbn [x_flag x_body] in *. rewrite <- !app_assoc in E. cbn [app] in E.
    apply (f_equal (@List.tl Z)) in E. cbn [List.tl] in E. rewrite <- !app_assoc in E.
    apply app_split in E as [E1 E]; [|reflexivity]. assert (N : zlen b2 = zlen b1) by (apply le16_inj; [unfold zlen in *; lia|unfold zlen in *; lia|exact E1]). apply app_split in E as [<- E]; [|unfold zlen in N; lia].
    apply (IH qs X f lo hi R); try assumption. cbn in L. lia.
Qed.
Lemma not_a_gdb c p s r P l f lo hi R : shape c = Some (p, s, r) -> length P = (61 + 9 * p + s)%nat -> (length l < s * r)%nat -> Forall eqn_ok l -> 0 <= lo < 256 -> zlen R < lo + 256 * hi ->
  forall g, gdb_ok c g -> P ++ concat (map eqn_bytes l) ++ f :: lo :: hi :: R <> gdb_bytes g.
Proof.
  intros S LP LL FL B TL g (p' & s' & r' & S' & LH & LS & LE & FE & _) E. rewrite S in S'. injection S' as <- <- <-. unfold gdb_bytes in E.
  symmetry in E. rewrite app_assoc in E. apply app_split in E as [_ E]; [|rewrite app_length; lia]. apply eqns_too_long in E; try assumption; lia.
Qed.
