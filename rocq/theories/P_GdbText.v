(** C145: GDBs with equations through their own dictionaries. *)
From Verif Require Import PyBase L_Base M_Data M_Flags M_Models M_Class M_Var M_Gdb M_GdbDict M_Tok M_Os M_GdbText M_Json S_Var S_Tok L_Var P_Var L_Tok P_Tok S_List L_List L_Load S_Gdb S_GdbDict L_Gdb P_Gdb L_GdbDict L_GdbLoad P_GdbDict P_Os P_Json L_GdbText.

Lemma zeros_zero k : forallb (fun x => x =? 0) (zeros k) = true.
Proof. induction k; [reflexivity|exact IHk]. Qed.
(** [k] escaped null bytes. *)
Definition nulls (k : nat) : str := concat (repeat (s2l "\x00") k).

Section Texts.
Context {OS : Type}.
Variable os_gt os_ge : OS -> OS -> bool.
Variable INITIAL illegal_since : OS.
Variable nfc : str -> str.
Variable sheet : bytes -> option (token OS).
Variable ks : list (token OS).
Variable os_of : model -> str -> OS.
Variable ns : cls -> str -> out bytes.
Variable ps : bytes -> option bool.
Variable json_name : str -> str.
Variable other_attr : entry -> str -> jv -> option (out entry).
Notation show := (graphed_string OS os_gt INITIAL illegal_since sheet).
Notation load := (expr_bytes OS os_gt os_ge INITIAL illegal_since nfc sheet (from_tokens ks) os_of ns ps).
Notation encode := (encode OS os_gt INITIAL illegal_since nfc (from_tokens ks) (s2l "smart")).
Notation gdb_dict := (gdb_dict shown_number shown_whole show json_name).
Notation gdb_load := (gdb_load_dict json_real graph_misfit load other_attr).
(** What is asked of the things outside: no two tokens of the sheet begin alike, the
    name Y1 can be set, and NFC leaves an escape in front alone. *)
Definition surroundings : Prop :=
  prefix_free sheet /\ equation_named ns /\ nfc [] = [] /\ forall s, nfc (s2l "\x00" ++ s) = s2l "\x00" ++ nfc s.
(** The body [b] of an equation comes back as [d]: null bytes alone are lost; tokens
    behind [k] null bytes come back behind [k + 1], as the tokens their text is encoded
    to. *)
Inductive comes_back : bytes -> bytes -> Prop :=
| back_empty k : (k < 256)%nat -> comes_back (zeros k) []
| back_tokens k ts b since : ts <> [] -> Forall (on_sheet sheet) ts -> zlen (zeros k ++ concat (map t_bits ts)) < 256 ->
    encode (text ts) = Ok (b, since) -> zlen (zeros (S k) ++ b) < 65536 -> comes_back (zeros k ++ concat (map t_bits ts)) (zeros (S k) ++ b).

Lemma parse_zeros k : parse illegal_since sheet (zeros k) = [].
Proof. destruct k; [reflexivity|]. cbn [zeros repeat parse]. rewrite Z.eqb_refl. fold (zeros k). now rewrite zeros_zero. Qed.
Lemma parse_nulls k l : forallb (fun x => x =? 0) l = false ->
  parse illegal_since sheet (zeros k ++ l) = repeat (false, illegal OS illegal_since [0]) k ++ parse illegal_since sheet l.
Proof.
  intros N. induction k as [|k IH]; [reflexivity|]. change (zeros (S k) ++ l) with (0 :: zeros k ++ l). cbn [parse repeat app]. rewrite Z.eqb_refl.
  replace (forallb (fun x => x =? 0) (zeros k ++ l)) with false by (rewrite forallb_app, zeros_zero, N; reflexivity). f_equal. exact IH.
Qed.
Lemma encode_nulls k s d since : (forall s, nfc (s2l "\x00" ++ s) = s2l "\x00" ++ nfc s) -> encode s = Ok (d, since) ->
  exists since', encode (nulls k ++ s) = Ok (zeros k ++ d, since').
Proof.
  intros N E. induction k as [|k (sn & IH)]; [now exists since|]. unfold nulls. cbn [repeat concat]. rewrite <- app_assoc.
  destruct (encode_escaped os_gt os_ge INITIAL illegal_since nfc ks _ _ _ (N _) IH) as (sn' & Q). exists sn'. exact Q.
Qed.
(** The text shown, and what it loads as. *)
Lemma shown_is b : prefix_free sheet -> zlen b < 256 -> exists n, decode OS os_gt INITIAL illegal_since sheet (skipn 1 (le16 (zlen b)) ++ b) =
  (repeat WDecode n, Ok (map snd (parse illegal_since sheet (0 :: b)), sinces os_gt (parse illegal_since sheet (0 :: b)) INITIAL)).
Proof.
  intros P L. unfold le16. cbn [skipn app]. rewrite Z.div_small by (split; [apply zlen_nonneg|exact L]).
  destruct (decode_parse os_gt INITIAL illegal_since sheet (0 :: b)) as (n & D & _). exists n. exact D.
Qed.
Lemma displays k ts : concat (map t_display (map snd (repeat (false, illegal OS illegal_since [0]) k ++ map (fun t => (true, t)) ts))) = nulls k ++ text ts.
Proof.
  rewrite !map_app, concat_app, !map_map. cbn [snd]. unfold text. f_equal. unfold nulls. induction k; [reflexivity|]. cbn [repeat map concat]. now rewrite IHk.
Qed.
(** A missing equation is an empty one; numbers, truth values and dictionaries are
    refused.  (Lists are left out: the code first tries them as lists of tokens, which
    the model does not.) *)
Theorem C145_null : equation_named ns -> exists w, load JNull = (w, Ok [0; 0]).
Proof.
  intros N. unfold expr_bytes. destruct (blank_ok os_gt os_ge INITIAL illegal_since sheet os_of ns ps N) as (w1 & nm & ->). cbn [obind].
  destruct (tok_version_total os_gt os_ge INITIAL illegal_since sheet os_of (eq_entry nm [0; 0] 0) None) as (w3 & v' & -> & I). cbn [obind].
  destruct (set_version_byte (eq_entry nm [0; 0] 0) 0 v' eq_refl ltac:(unfold is_byte; lia) ltac:(cbn in I; clear - I; lia)) as (w4 & ->). cbn [obind oret].
  eexists. reflexivity.
Qed.
Theorem C145_other : forall j, j <> JNull -> (forall s, j <> JStr s) -> (forall l, j <> JArr l) -> load j = oerr TypeError.
Proof. intros [] N S A; try reflexivity; [now destruct N|now destruct (S s)]. Qed.
Theorem C145_text : forall q d, surroundings -> comes_back (x_body q) d -> forall st co,
  exists w s w', show (Geq (eqn_bytes q) st co) = (w, Ok s) /\ load (JStr s) = (w', Ok (le16 (zlen d) ++ d)) /\ zlen d < 65536.
Proof.
  intros q d (P & NY & N0 & NE) B st co. unfold graphed_string, graphed_data, eqn_bytes. cbn [q_data]. change (skipn 2 (x_flag q :: le16 (zlen (x_body q)) ++ x_body q)) with (skipn 1 (le16 (zlen (x_body q))) ++ x_body q).
  destruct B as [k K|k ts b since N F L E L'].
  - destruct (shown_is (zeros k) P) as (n & D); [unfold zlen, zeros; rewrite repeat_length; lia|]. rewrite D. change (0 :: zeros k) with (zeros (S k)). rewrite parse_zeros. cbn [obind map fst concat oret].
    eexists. exists []. destruct (text_loads os_gt os_ge INITIAL illegal_since nfc sheet os_of ns ps ks [] [] INITIAL NY) as (w & W); [|vm_compute; reflexivity|exists w; split; [reflexivity|split; [exact W|vm_compute; reflexivity]]].
    unfold M_Tok.encode, encode_tokens, normalize. rewrite N0. reflexivity.
  - destruct (shown_is _ P L) as (n & D). rewrite D. change (0 :: zeros k ++ concat (map t_bits ts)) with (zeros (S k) ++ concat (map t_bits ts)).
    rewrite parse_nulls, (parse_concat os_gt illegal_since sheet ts P F) by (now apply tokens_nonzero with (sheet := sheet)). cbn [obind fst oret]. rewrite displays.
    destruct (encode_nulls (S k) (text ts) b since NE E) as (sn & Q).
    destruct (text_loads os_gt os_ge INITIAL illegal_since nfc sheet os_of ns ps ks _ _ _ NY Q L') as (w & W). eexists. eexists. exists w. split; [reflexivity|]. split; [exact W|exact L'].
Qed.

(** ** The whole GDB *)
Notation kept_numbers c g := (fun k => number_at (g_head g) (shown_at c k)).
Definition showable (c : cls) (g : gdb) : Prop :=
  gdb_shown c g /\ colour c = true /\ names_fit g /\ (forall i, (i < length (g_styles g))%nat -> color_at g i <> 0) /\
  (is_seq c = true -> named_kind (nth 5 (g_head g) 0) = false) /\ xres_fits c g /\
  (forall k, (k < length (params c))%nat -> number_kept (whole_at c k) (number_at (g_head g) (shown_at c k))) /\
  (forall n, In n (equation_names c) -> json_name n = n).
Lemma texts_back c g retext : surroundings -> (forall n, In n (equation_names c) -> json_name n = n) ->
  Forall (fun q => is_byte (x_flag q) /\ comes_back (x_body q) (retext q)) (g_eqns g) ->
  exists txt, texts_reload (quiet show) (quiet load) json_name c g txt retext.
Proof.
  intros SU J F. rewrite Forall_forall in F.
  exists (fun i => match nth_error (g_eqns g) i with
    | Some q => match snd (show (Geq (eqn_bytes q) (Some [nth (group_of c i) (g_styles g) 0]) (Some [color_at g (group_of c i)]))) with Ok s => s | Err _ => [] end | None => [] end).
  split; [exact J|]. intros i q Hq. destruct (F q (nth_error_In _ _ Hq)) as (B & CB). split; [exact B|]. rewrite Hq.
  destruct (C145_text q (retext q) SU CB (Some [nth (group_of c i) (g_styles g) 0]) (Some [color_at g (group_of c i)])) as (w & s & w' & A1 & A2 & A3).
  unfold quiet. rewrite A1. cbn [snd]. rewrite A2. split; [reflexivity|]. split; [reflexivity|exact A3].
Qed.
Lemma loud e e0 D r : M_GdbDict.gdb_dict shown_number shown_whole (quiet show) json_name e = oret D ->
  snd (gdb_load_dict json_real graph_misfit (quiet load) other_attr D e0) = r ->
  exists w w' D, gdb_dict e = (w, Ok D) /\ gdb_load D e0 = (w', r).
Proof.
  intros D1 D2. pose proof (gdb_dict_quiet shown_number shown_whole show json_name e) as Q1. pose proof (gdb_load_quiet json_real graph_misfit load other_attr D e0) as Q2.
  unfold same in Q1, Q2. rewrite D1 in Q1. rewrite D2 in Q2. destruct (gdb_dict e) as [w r1], (gdb_load D e0) as [w' r2] eqn:G. cbn [snd oret] in Q1, Q2. subst r1 r2.
  exists w, w', D. split; [reflexivity|exact G].
Qed.
Theorem C145_reload : forall e e0 g retext, let c := e_cls e in surroundings -> showable c g ->
  e_data e = Buf true (gdb_bytes g) -> e_cls e0 = c ->
  Forall (fun q => is_byte (x_flag q) /\ comes_back (x_body q) (retext q)) (g_eqns g) ->
  exists w w' D, gdb_dict e = (w, Ok D) /\
    gdb_load D e0 = (w', Ok (with_data e0 (Buf true (gdb_bytes (gdb_again c (kept_numbers c g) retext g))))).
Proof.
  intros e e0 g retext c SU (SH & C & NF & CO & NK & XF & N & J) ED E0 F. destruct (texts_back c g retext SU J F) as (txt & T).
  destruct (C142_reload (quiet show) (quiet load) json_name other_attr e e0 g txt retext SH C NF CO NK ED E0 XF N T) as (D & D1 & D2).
  apply (loud e e0 D _ D1). now rewrite D2.
Qed.
(** A GDB without colours, or with a colour 0, or with a named kind of sequence, cannot be loaded back (C111,
    C112), whatever its equations. *)
Theorem C145_uncoloured : forall e e0 g retext, let c := e_cls e in surroundings ->
  gdb_shown c g -> names_fit g -> xres_fits c g -> (forall k, (k < length (params c))%nat -> number_kept (whole_at c k) (number_at (g_head g) (shown_at c k))) ->
  (forall n, In n (equation_names c) -> json_name n = n) ->
  e_data e = Buf true (gdb_bytes g) -> e_cls e0 = c ->
  Forall (fun q => is_byte (x_flag q) /\ comes_back (x_body q) (retext q)) (g_eqns g) ->
  (exists i, (i < length (g_styles g))%nat /\ color_at g i = 0) \/
  (c = KSeq /\ (forall i, (i < length (g_styles g))%nat -> color_at g i <> 0) /\ named_kind (nth 5 (g_head g) 0) = true) ->
  exists w w' D, gdb_dict e = (w, Ok D) /\ gdb_load D e0 = (w', Err KeyError).
Proof.
  intros e e0 g retext c SU SH NF XF N J ED E0 F H. destruct (texts_back c g retext SU J F) as (txt & T). pose proof (C142_numbers c g XF N) as NR.
  destruct H as [H|(HC & CO & NK)].
  - destruct (C111_uncoloured json_real shown_number shown_whole graph_misfit (quiet show) (quiet load) json_name other_attr e e0 g _ _ txt retext SH NF ED E0 NR T H) as (D & D1 & D2). apply (loud e e0 D _ D1). now rewrite D2.
  - destruct (C112_sequence json_real shown_number shown_whole graph_misfit (quiet show) (quiet load) json_name other_attr e e0 g _ _ txt retext SH HC NF CO NK ED E0 NR T) as (D & D1 & D2). apply (loud e e0 D _ D1). now rewrite D2.
Qed.
(** The result has the same bytes only if all equations are empty (and the rest is kept, see
    C110). *)
Lemma back_same b d : prefix_free sheet -> comes_back b d -> b = d <-> b = [].
Proof.
  intros P [k K|k ts x since N F L E L']; [reflexivity|]. assert (Z0 : forallb (fun x => x =? 0) (concat (map t_bits ts)) = false) by (now apply tokens_nonzero with (sheet := sheet)). split.
  - intros H. exfalso. destruct P as [K _]. destruct ts as [|t ts]; [contradiction|]. inversion F as [|? ? Ht _]; subst. destruct (K _ _ Ht) as (LT & H0).
    assert (Q : forall k, nth k (zeros k ++ concat (map t_bits (t :: ts))) 0 = nth k (zeros (S k) ++ x) 0 -> False).
    { intros j Q. rewrite app_nth2 in Q by (unfold zeros; rewrite repeat_length; lia). rewrite app_nth1 in Q by (unfold zeros; rewrite repeat_length; lia). unfold zeros in Q. rewrite repeat_length, Nat.sub_diag, nth_repeat in Q.
      cbn [map concat] in Q. destruct (t_bits t) as [|a r]; [destruct LT; discriminate|]. cbn [app nth hd] in *. contradiction. }
    apply (Q k). now rewrite H.
  - intros H. apply app_eq_nil in H as [_ H]. rewrite H in Z0. discriminate Z0.
Qed.
Lemma number_len c g k : number_kept (whole_at c k) (number_at (g_head g) (shown_at c k)) -> length (number_at (g_head g) (shown_at c k)) = 9%nat.
Proof. intros (neg & x & M & (L & _) & _). exact L. Qed.
Theorem C145_unchanged : forall c g retext, surroundings -> showable c g ->
  Forall (fun q => is_byte (x_flag q) /\ comes_back (x_body q) (retext q)) (g_eqns g) ->
  gdb_bytes (gdb_again c (kept_numbers c g) retext g) = gdb_bytes g <-> gdb_kept c (kept_numbers c g) (fun _ => []) g.
Proof.
  intros c g retext SU (SH & C & NF & CO & NK & XF & N & J) F. rewrite C110_identity; [|exact SH|intros k K; apply number_len, N, K|].
  2:{ eapply Forall_impl; [|exact F]. intros q (B & CB). split; [exact B|]. destruct CB as [? ?|? ? ? ? ? ? ? ? L']; [vm_compute; reflexivity|exact L']. }
  unfold gdb_kept. assert (X : Forall (fun q => Z.land (x_flag q) 31 = 3 /\ x_body q = retext q) (g_eqns g) <-> Forall (fun q => Z.land (x_flag q) 31 = 3 /\ x_body q = []) (g_eqns g)).
  { rewrite !Forall_forall in *. destruct SU as (P & _). split; intros H q Q; specialize (H q Q); destruct (F q Q) as (_ & CB); apply (back_same _ _ P) in CB; tauto. }
  split; intros (p & s & r & x & T & A1 & A2 & A3 & A4 & A5 & A6); exists p, s, r, x, T; (split; [exact A1|]); (split; [exact A2|]); (split; [exact A3|]); (split; [exact A4|]); (split; [now apply X|exact A6]).
Qed.

(** ** Again and again *)
(** Showing and loading into the same entry, [n] times. *)
Definition trip (e e' : entry) : Prop := exists w w' D, gdb_dict e = (w, Ok D) /\ gdb_load D e = (w', Ok e').
Fixpoint trips (n : nat) (e e' : entry) : Prop := match n with O => e' = e | S m => exists e1, trips m e e1 /\ trip e1 e' end.
(** The non-empty equations behind [n] null bytes. *)
Definition pad (n : nat) (q : eqn) : eqn := Eqn (x_flag q) (match x_body q with [] => [] | b => zeros n ++ b end).
Definition padded (n : nat) (g : gdb) : gdb := Gdb (g_head g) (g_styles g) (map (pad n) (g_eqns g)) (g_tail g).
(** Tokens whose text is encoded to the same tokens. *)
Definition stable (b : bytes) : Prop := b = [] \/ exists ts since, ts <> [] /\ Forall (on_sheet sheet) ts /\ b = concat (map t_bits ts) /\ encode (text ts) = Ok (b, since).
Lemma padded_showable n c g : Forall (fun q => Z.of_nat n + zlen (x_body q) < 65536) (g_eqns g) -> showable c g -> showable c (padded n g).
Proof.
  intros FL (((p & s & r & S & LH & LS & LE & FE & TK) & M & B4 & B5 & B6 & TL) & C & (F1 & F2) & R). split; [|split; [exact C|split; [split; [exact F1|exact F2]|exact R]]].
  split; [|split; [exact M|split; [exact B4|split; [exact B5|split; [exact B6|exact TL]]]]]. exists p, s, r. split; [exact S|]. split; [exact LH|]. split; [exact LS|]. split; [unfold padded; cbn [g_eqns]; now rewrite map_length|]. split; [|exact TK].
  unfold padded. cbn [g_eqns]. apply Forall_forall. intros q Q. apply in_map_iff in Q as (q0 & <- & Q). rewrite Forall_forall in FL. specialize (FL q0 Q). unfold eqn_ok, pad. cbn [x_body]. destruct (x_body q0) as [|a b]; [vm_compute; reflexivity|].
  rewrite zlen_app. unfold zeros. unfold zlen at 1. rewrite repeat_length. exact FL.
Qed.
Lemma padded_0 g : padded 0 g = g.
Proof.
  destruct g as [h st qs t]. unfold padded. cbn [g_head g_styles g_eqns g_tail]. f_equal. rewrite <- (map_id qs) at 2. apply map_ext. intros [f b]. unfold pad. cbn [x_flag x_body]. now destruct b.
Qed.
Theorem C145_grows : forall n e g, let c := e_cls e in surroundings -> showable c g -> gdb_kept c (kept_numbers c g) x_body g ->
  e_data e = Buf true (gdb_bytes g) ->
  Forall (fun q => is_byte (x_flag q) /\ stable (x_body q) /\ Z.of_nat n + zlen (x_body q) <= 256) (g_eqns g) ->
  trips n e (with_data e (Buf true (gdb_bytes (padded n g)))).
Proof.
  induction n as [|n IH]; intros e g c SU SW KP ED F; [cbn [trips]; rewrite padded_0; destruct e; cbn in ED; subst; reflexivity|].
  cbn [trips]. exists (with_data e (Buf true (gdb_bytes (padded n g)))). split.
  { apply IH; auto. eapply Forall_impl; [|exact F]. cbn beta. intros q (A & B & L). split; [exact A|]. split; [exact B|lia]. }
  assert (SW' : showable c (padded n g)).
  { apply padded_showable; [|exact SW]. eapply Forall_impl; [|exact F]. cbn beta. intros q (_ & _ & L). lia. }
  assert (SW2 : showable c (padded (S n) g)).
  { apply padded_showable; [|exact SW]. eapply Forall_impl; [|exact F]. cbn beta. intros q (_ & _ & L). lia. }
  set (retext := fun q => match x_body q with [] => [] | b => 0 :: b end).
  assert (CB : Forall (fun q => is_byte (x_flag q) /\ comes_back (x_body q) (retext q)) (g_eqns (padded n g))).
  { unfold padded. cbn [g_eqns]. apply Forall_forall. intros q Q. apply in_map_iff in Q as (q0 & <- & Q). rewrite Forall_forall in F. destruct (F q0 Q) as (B & ST & L). split; [exact B|].
    unfold retext, pad. cbn [x_body]. destruct ST as [->|(ts & since & NT & FT & EB & EN)]; [apply (back_empty 0); lia|].
    destruct (x_body q0) as [|a b] eqn:Eb; [apply (back_empty 0); lia|].
    assert (X : zeros n ++ a :: b <> []) by (destruct n; discriminate). destruct (zeros n ++ a :: b) as [|h t] eqn:Eh; [contradiction|]. rewrite <- Eh.
    change (0 :: zeros n ++ a :: b) with (zeros (S n) ++ a :: b). rewrite EB. apply (back_tokens n ts _ since NT FT); [| |].
    - rewrite <- EB, zlen_app. unfold zeros. unfold zlen at 1. rewrite repeat_length. lia.
    - now rewrite <- EB.
    - rewrite <- EB, zlen_app. unfold zeros. unfold zlen at 1. rewrite repeat_length. lia. }
  destruct (C145_reload (with_data e (Buf true (gdb_bytes (padded n g)))) (with_data e (Buf true (gdb_bytes (padded n g)))) (padded n g) retext SU SW' eq_refl eq_refl CB) as (w & w' & D & D1 & D2).
  exists w, w', D. split; [exact D1|]. rewrite D2. f_equal. f_equal.
  transitivity (with_data e (Buf true (gdb_bytes (gdb_again c (kept_numbers c g) retext (padded n g))))); [reflexivity|]. f_equal. f_equal. clear D D1 D2 w w'. clearbody c. rename c into ce.
  assert (R : gdb_again ce (kept_numbers ce g) retext (padded n g) = gdb_again ce (kept_numbers ce g) x_body (padded (S n) g)).
  { unfold gdb_again. destruct SW as (((p & s & r & S & _) & _) & _). rewrite S. unfold padded. cbn [g_head g_styles g_eqns g_tail]. f_equal. rewrite !map_map. apply map_ext. intros q. unfold pad, retext. cbn [x_flag x_body].
    destruct (x_body q) as [|a b]; [reflexivity|]. f_equal. destruct (zeros n ++ a :: b) as [|h t] eqn:Eh; [destruct n; discriminate Eh|]. rewrite <- Eh. reflexivity. }
  etransitivity; [exact (f_equal gdb_bytes R)|]. apply (C110_identity ce (padded (S n) g) (kept_numbers ce g) x_body).
  - apply SW2.
  - intros k K. destruct SW as (_ & _ & _ & _ & _ & _ & N & _). apply number_len, N, K.
  - unfold padded. cbn [g_eqns]. apply Forall_forall. intros q Q. apply in_map_iff in Q as (q0 & <- & Q). rewrite Forall_forall in F. destruct (F q0 Q) as (B & _ & L). split; [exact B|]. unfold pad. cbn [x_body]. destruct (x_body q0) as [|a b]; [vm_compute; reflexivity|].
    rewrite zlen_app. unfold zeros. unfold zlen at 1. rewrite repeat_length. lia.
  - destruct KP as (p & s & r & x & T & A1 & A2 & A3 & A4 & A5 & A6). exists p, s, r, x, T. split; [exact A1|]. split; [exact A2|]. split; [exact A3|]. split; [exact A4|]. split; [|exact A6].
    unfold padded. cbn [g_eqns]. apply Forall_forall. intros q Q. apply in_map_iff in Q as (q0 & <- & Q). rewrite Forall_forall in A5. destruct (A5 q0 Q) as (K1 & _). split; [exact K1|reflexivity].
Qed.
End Texts.

(** The default settings with the equation Y1 = BA. *)
Definition curve : gdb :=
  let g := default_gdb KFunc in
  Gdb (g_head g) (g_styles g) (Eqn 3 [66; 65] :: tl (g_eqns g)) (g_tail g).
Definition curve_entry : entry := gdb_entry KFunc (gdb_bytes curve).
Notation trips0 := (trips Z.gtb Z.geb 0 0 (fun s => s) sheet0 kz os0 ns0 ps0 (fun n => n) none0).
Lemma curve_surroundings : surroundings (fun s => s) sheet0 ns0.
Proof. split; [exact sheet0_prefix_free|]. split; [do 2 eexists; vm_compute; reflexivity|]. split; reflexivity. Qed.
Lemma curve_stable : Forall (fun q => is_byte (x_flag q) /\ stable Z.gtb 0 0 (fun s => s) sheet0 kz (x_body q) /\ Z.of_nat 200 + zlen (x_body q) <= 256) (g_eqns curve).
Proof.
  constructor; [split; [unfold is_byte; cbn; lia|]; split; [|vm_compute; discriminate]|].
  - right. exists [kB; kA], 0. split; [discriminate|]. split; [repeat constructor|]. split; [reflexivity|]. vm_compute. reflexivity.
  - cbn [curve g_eqns default_gdb tl]. repeat (constructor; [split; [unfold is_byte; cbn; lia|]; split; [now left|vm_compute; discriminate]|]). constructor.
Qed.
Lemma curve_showable : showable (fun n => n) KFunc curve.
Proof.
  destruct C142_example_gdb as (XF & N). split; [|split; [reflexivity|split; [|split; [|split; [discriminate|split; [exact XF|split; [exact N|reflexivity]]]]]]].
  - split; [exists 1%nat, 10%nat, 1%nat; split; [reflexivity|]; do 3 (split; [vm_compute; reflexivity|]); split; [repeat constructor|vm_compute; auto]|]. split; [reflexivity|]. do 3 (split; [vm_compute; intuition discriminate|]).
    cbn [colour]. eexists. split; [reflexivity|]. do 5 eexists. split; [reflexivity|]. unfold named_color, is_byte. lia.
  - split; [cbn [curve g_styles default_gdb]|cbn [curve g_tail default_gdb]]; vm_compute; repeat constructor; discriminate.
  - intros i I. change (length (g_styles curve)) with 10%nat in I. do 10 (destruct i as [|i]; [vm_compute; discriminate|]). lia.
Qed.
Lemma curve_kept : gdb_kept KFunc (fun k => number_at (g_head curve) (shown_at KFunc k)) x_body curve.
Proof.
  exists 1%nat, 10%nat, 1%nat. eexists. eexists. split; [reflexivity|]. split; [reflexivity|]. split; [lia|]. split; [do 2 eexists; split; [reflexivity|]; split; [cbn; lia|reflexivity]|]. split; [repeat constructor|].
  cbn. split; [reflexivity|]. do 5 eexists. split; [reflexivity|]. lia.
Qed.
(** Each trip through the dictionary puts one more null byte in front of the tokens. *)
Definition first_equation (e : entry) : result bytes := try q := get_equation KFunc 0 (calc_data e) in Ok (q_data q).
Theorem C145_refuted : first_equation curve_entry = Ok [3; 2; 0; 66; 65] /\
  exists e1 e2, trips0 1 curve_entry e1 /\ first_equation e1 = Ok [3; 3; 0; 0; 66; 65] /\
    trips0 2 curve_entry e2 /\ first_equation e2 = Ok [3; 4; 0; 0; 0; 66; 65].
Proof.
  split; [vm_compute; reflexivity|].
  assert (G : forall n, (n <= 200)%nat -> trips0 n curve_entry (with_data curve_entry (Buf true (gdb_bytes (padded n curve))))).
  { intros n H. apply C145_grows; [exact curve_surroundings|exact curve_showable|exact curve_kept|reflexivity|]. eapply Forall_impl; [|exact curve_stable]. cbn beta. intros q (A & B & L). split; [exact A|]. split; [exact B|lia]. }
  eexists. eexists. split; [apply G; lia|]. split; [vm_compute; reflexivity|]. split; [apply G; lia|]. vm_compute. reflexivity.
Qed.
(** The same by running the code; the text shown and its warnings. *)
Example C145_example : graphed_string Z Z.gtb 0 0 sheet0 (Geq [3; 2; 0; 66; 65] None None) = ([WDecode], Ok (s2l "\x00BA")) /\
  snd (expr_bytes Z Z.gtb Z.geb 0 0 (fun s => s) sheet0 (from_tokens kz) os0 ns0 ps0 (JStr (s2l "\x00BA"))) = Ok [3; 0; 0; 66; 65] /\
  snd (expr_bytes Z Z.gtb Z.geb 0 0 (fun s => s) sheet0 (from_tokens kz) os0 ns0 ps0 (JStr (s2l "AB"))) = Ok [2; 0; 187; 1] /\
  snd (expr_bytes Z Z.gtb Z.geb 0 0 (fun s => s) sheet0 (from_tokens kz) os0 ns0 ps0 (JStr (s2l "?"))) = Err ValueError /\
  snd (expr_bytes Z Z.gtb Z.geb 0 0 (fun s => s) sheet0 (from_tokens kz) os0 ns0 ps0 JNull) = Ok [0; 0] /\
  match obind (gdb_dict shown_number shown_whole (graphed_string Z Z.gtb 0 0 sheet0) (fun n => n) curve_entry)
          (fun D => gdb_load_dict json_real graph_misfit (expr_bytes Z Z.gtb Z.geb 0 0 (fun s => s) sheet0 (from_tokens kz) os0 ns0 ps0) none0 D curve_entry) with
  | (w, Ok e') => w = [WDecode; WDecode; WDecode] /\ first_equation e' = Ok [3; 3; 0; 0; 66; 65]
  | _ => False
  end /\ comes_back Z.gtb 0 0 (fun s => s) sheet0 kz [66; 65] [0; 66; 65] /\
  surroundings (fun s => s) sheet0 ns0 /\ showable (fun n => n) KFunc curve.
Proof.
  do 5 (split; [vm_compute; reflexivity|]). split; [vm_compute; split; reflexivity|]. split; [|split; [exact curve_surroundings|exact curve_showable]].
  apply (back_tokens Z.gtb 0 0 (fun s => s) sheet0 kz 0 [kB; kA] [66; 65] 0); [discriminate|repeat constructor|vm_compute; reflexivity|vm_compute; reflexivity|vm_compute; reflexivity].
Qed.
Definition mono_curve : gdb := Gdb (g_head curve) (g_styles curve) (g_eqns curve) None.
Example C145_mono_example : gdb_shown KMonoFunc mono_curve /\ names_fit mono_curve /\ color_at mono_curve 0 = 0 /\
  snd (obind (gdb_dict shown_number shown_whole (graphed_string Z Z.gtb 0 0 sheet0) (fun n => n) (gdb_entry KMonoFunc (gdb_bytes mono_curve)))
          (fun D => gdb_load_dict json_real graph_misfit (expr_bytes Z Z.gtb Z.geb 0 0 (fun s => s) sheet0 (from_tokens kz) os0 ns0 ps0) none0 D (gdb_entry KMonoFunc (gdb_bytes mono_curve)))) = Err KeyError.
Proof.
  split; [|split; [|split; [reflexivity|vm_compute; reflexivity]]].
  - split; [exists 1%nat, 10%nat, 1%nat; split; [reflexivity|]; do 3 (split; [vm_compute; reflexivity|]); split; [repeat constructor|vm_compute; auto]|]. split; [reflexivity|]. do 3 (split; [vm_compute; intuition discriminate|]). reflexivity.
  - split; [vm_compute; repeat constructor; discriminate|exact I].
Qed.
Print Assumptions C145_text.
Print Assumptions C145_reload.
Print Assumptions C145_uncoloured.
Print Assumptions C145_unchanged.
Print Assumptions C145_grows.
Print Assumptions C145_refuted.
