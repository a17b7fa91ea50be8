(** Versions, loading, and construction from bytes (C115-C118). *)
From Verif Require Import L_Base M_Data M_Flags M_Models M_Class M_Var M_Real M_Complex M_List M_Tok M_Group M_Gdb M_Load
  S_Data L_Data L_Flags S_Var L_Models L_Var L_Tok L_Gdb P_Var P_Tok L_Load.

Section Load.
  Variable OS : Type.
  Variable os_gt os_ge : OS -> OS -> bool.
  Variable INITIAL illegal_since : OS.
  Variable os_of : model -> str -> OS.
  Variable sheet : bytes -> option (token OS).
  Variable ns : cls -> str -> out bytes.
  Variable ps : bytes -> option bool.
Notation gv := (get_version OS os_gt os_ge INITIAL illegal_since os_of sheet ns ps).
Notation load := (load_bytes OS os_gt os_ge INITIAL illegal_since os_of sheet ns ps).
Notation init := (entry_init OS os_gt os_ge INITIAL illegal_since os_of sheet ns ps).
Notation from := (entry_from OS os_gt os_ge INITIAL illegal_since os_of sheet ns ps).
Notation equation := (graphed_equation OS os_gt os_ge INITIAL illegal_since os_of sheet ns ps).

(** C116: the version computed for any entry is a small number, and one that its class
    recognises, unless the class does not check at all or the version is 7 (or 0x27). *)
Theorem C116_recognised : forall e arg w v, gv e arg = (w, Ok v) ->
  0 <= v <= 44 /\
  (In v (versions (e_cls e)) \/ versions (e_cls e) = [0] \/ issubclass (e_cls e) KTokenized = true /\ (v = 7 \/ v = 39)).
Proof.
  intros e arg w v H. split; [exact (gv_range _ _ _ _ _ _ _ _ _ _ _ _ _ H)|].
  destruct (issubclass (e_cls e) KTokenized) eqn:T.
  - rewrite gv_tokenized in H by exact T. apply C49_recognised in H.
    assert (V : versions (e_cls e) = tokenized_versions \/ versions (e_cls e) = [0]) by (destruct (e_cls e); try discriminate T; auto).
    destruct V as [->| ->]; [|auto]. destruct H; auto.
  - unfold get_version in H. cbn [version_in] in H. unfold plain_version in H. rewrite T in H.
    destruct (issubclass (e_cls e) KGroup) eqn:G. { right. left. destruct (e_cls e); try discriminate G; reflexivity. }
    destruct (issubclass (e_cls e) KComplexEntry) eqn:C.
    { unfold olift in H. destruct (complex_version e arg) eqn:E; [|discriminate H]. injection H as _ <-. apply complex_values in E.
      assert (V : versions (e_cls e) = [0; 11; 16]) by (destruct (e_cls e); try discriminate C; reflexivity). rewrite V. auto. }
    destruct (issubclass (e_cls e) KList || issubclass (e_cls e) KMatrix) eqn:L.
    { apply list_values in H. assert (V : versions (e_cls e) = [16; 11; 0]) by (destruct (e_cls e); try discriminate L; reflexivity). rewrite V. auto. }
    destruct (issubclass (e_cls e) KMonoGDB) eqn:M. { right. left. destruct (e_cls e); try discriminate M; reflexivity. }
    left. unfold base_version in H. destruct (versions (e_cls e)); [discriminate H|]. injection H as _ <-. now left.
Qed.

(** C117: loading through a tokenised class.  The warning about a wrong version appears
    exactly if the version byte is not that of the loaded data; assembly programs are not
    checked; and the warning about an invalid token never appears. *)
Theorem C117_version_warning : forall c b w e, issubclass c KTokenized = true -> c <> KTokenized -> load c b = (w, Ok e) ->
  exists w' v, gv e None = (w', Ok v) /\
    (In WVersionWrong w <-> version e <> Ok v /\ is_tokenized (e_cls e) = true) /\ ~ In WInvalidToken w.
Proof.
  intros c b w e T N H.
  assert (S : exists ws, sized_load ps c b = (ws, Ok e)).
  { unfold load_bytes in H. rewrite T in H. unfold program_load, tokenized_load in H.
    destruct (issubclass c KProgram); apply obind_ok in H as (ws & x & ? & S & H & _); apply obind_ok in H as (? & ? & ? & _ & H & _);
      injection H as _ <-; exists ws; exact S. }
  destruct S as (ws & S). pose proof (free_sized ps c b) as F. rewrite S in F. unfold free in F. cbn [fst] in F.
  assert (T' : issubclass (e_cls e) KTokenized = true).
  { pose proof S as S'. unfold sized_load in S'. apply obind_ok in S' as (w1 & x & ? & L & S' & _). apply obind_ok in S' as (? & ? & ? & _ & S' & _).
    injection S' as _ <-. now apply load_tokenized in L. }
  destruct (gv_total OS os_gt os_ge INITIAL illegal_since os_of sheet ns ps e None T') as (wv & v & G). exists wv, v. split; [exact G|].
  pose proof (free_tok OS os_gt os_ge INITIAL illegal_since os_of sheet e None) as FT. rewrite <- (gv_tokenized _ _ _ _ _ _ _ ns ps) in FT by exact T'. rewrite G in FT. unfold free in FT. cbn [fst] in FT.
  assert (AF : forall x, In x (ws ++ wv) -> checks x = false) by (intros x I; apply in_app_or in I as [I|I]; auto).
  assert (Checked : forall w0, (do e := sized_load ps c b in do _ := version_check OS os_gt os_ge INITIAL illegal_since os_of sheet ns ps e in oret e) = (w0, Ok e) ->
      (In WVersionWrong w0 <-> version e <> Ok v) /\ ~ In WInvalidToken w0).
  { intros w0 H0. rewrite S in H0. cbn [obind] in H0. unfold version_check in H0. rewrite G in H0. cbn [obind] in H0. unfold olift in H0.
    destruct (version e) as [own|x]; [|discriminate H0]. cbn [obind] in H0. unfold owarn_if in H0.
    destruct (own =? v) eqn:E; cbn [negb owarn obind oret app] in H0; injection H0 as <-; rewrite ?app_nil_r.
    - apply Z.eqb_eq in E. subst own. split; [split|].
      + intros I. apply AF in I. discriminate I.
      + intros X. now contradiction X.
      + intros I. apply AF in I. discriminate I.
    - apply Z.eqb_neq in E. rewrite app_assoc. split; [split|].
      + intros _ X. injection X as X. contradiction.
      + intros _. apply in_or_app. right. now left.
      + intros I. apply in_app_or in I as [I|[I|[]]]; [apply AF in I|]; discriminate I. }
  unfold load_bytes in H. rewrite T in H. destruct (issubclass c KProgram) eqn:P.
  - unfold program_load in H. destruct (is_tokenized (e_cls e)) eqn:K.
    + assert (H2 : (do e := sized_load ps c b in do _ := version_check OS os_gt os_ge INITIAL illegal_since os_of sheet ns ps e in oret e) = (w, Ok e)).
      { rewrite <- H, S. cbn [obind]. now rewrite K. }
      apply Checked in H2 as (A & B). split; [|exact B]. rewrite A. tauto.
    + rewrite S in H. cbn [obind] in H. rewrite K in H. injection H as <-. rewrite !app_nil_r. split; [split|].
      * intros I. apply F in I. discriminate I.
      * intros [_ X]. discriminate X.
      * intros I. apply F in I. discriminate I.
  - apply Checked in H as (A & B). split; [|exact B]. rewrite A.
    assert (K : is_tokenized (e_cls e) = true); [|tauto].
    unfold sized_load in S. apply obind_ok in S as (? & x & ? & L & S & _). apply obind_ok in S as (? & ? & ? & _ & S & _). injection S as _ <-.
    pose proof (load_keeps_kind ps c b _ _ T P N L). assumption.
Qed.

(** Construction from bytes, given what the parts do. *)
Lemma init_ok c name b w e u wv v wn blank : entry_load ps c b = (w, Ok e) -> e_version e = [u] -> is_byte u -> gv e None = (wv, Ok v) ->
  entry_new ns gv ps c true name (Some 0) None [] = (wn, Ok blank) -> exists w', init c true name None None b = (w', Ok (with_version e [v])).
Proof.
  intros L U BU G B.
  assert (LB : exists w, load c b = (w, Ok e)).
  { assert (SL : exists w, sized_load ps c b = (w, Ok e)).
    { unfold sized_load. rewrite L. cbn [obind]. unfold owarn_if. destruct (negb _); eexists; reflexivity. }
    destruct SL as (wsl & SL).
    assert (VC : exists w, version_check OS os_gt os_ge INITIAL illegal_since os_of sheet ns ps e = (w, Ok tt)).
    { unfold version_check. rewrite G. rewrite (version_byte e u U BU). unfold olift, owarn_if. cbn [obind]. destruct (negb _); eexists; reflexivity. }
    destruct VC as (wc & VC). unfold load_bytes. destruct (issubclass c KProgram).
    { unfold program_load. rewrite SL. cbn [obind]. destruct (is_tokenized _); [rewrite VC|]; eexists; reflexivity. }
    destruct (issubclass c KTokenized). { unfold tokenized_load. rewrite SL. cbn [obind]. rewrite VC. eexists; reflexivity. }
    destruct (issubclass c KSized); [eauto|]. destruct (issubclass c KList).
    { unfold list_load. rewrite L. cbn [obind]. unfold owarn_if. destruct (_ && _); eexists; reflexivity. }
    destruct (issubclass c KMatrix); [|eauto]. unfold matrix_load. rewrite L. cbn [obind]. unfold owarn_if. destruct (negb _); eexists; reflexivity. }
  destruct LB as (wb & LB).
  pose proof (gv_range _ _ _ _ _ _ _ _ _ _ _ _ _ G) as R.
  destruct (set_version_byte e u v U BU) as (wsv & SV); [lia|].
  unfold entry_init. rewrite B. cbn [obind]. rewrite LB. cbn [obind]. rewrite G. cbn [obind]. rewrite SV. eexists. reflexivity.
Qed.
(** C115: constructing an entry of class [c] from another entry gives the class that
    loading gives, and the contents of the other entry with the version computed from the
    data in place of its version byte. *)
Theorem C115_constructed : forall c name e wn blank, storable e -> loadable_as c e -> ~ ambiguous e ->
  entry_new ns gv ps c true name (Some 0) None [] = (wn, Ok blank) ->
  exists wl e2, entry_load ps c (image_of e) = (wl, Ok e2) /\ same_raw e2 e /\
    forall wv v, gv e2 None = (wv, Ok v) ->
      exists w e', from c name e = (w, Ok e') /\ e_cls e' = e_cls e2 /\ same_raw e' (with_version e [v]) /\
        (same_raw e' e <-> e_version e = [v]).
Proof.
  intros c name e wn blank St Ld NA B. destruct (load_storable ps c e [] St NA Ld) as (wl & e2 & L & SR & _). rewrite app_nil_r in L.
  exists wl, e2. split; [exact L|]. split; [exact SR|]. intros wv v G.
  destruct (st_vers e St) as (u & U & BU). pose proof SR as (S1 & S2 & S3 & S4 & S5 & S6).
  assert (U2 : e_version e2 = [u]) by congruence.
  destruct (init_ok c name _ _ _ u wv v wn blank L U2 BU G B) as (w & I).
  unfold entry_from. rewrite (entry_bytes_image e St). unfold olift. cbn [obind]. rewrite I.
  eexists. exists (with_version e2 [v]). split; [reflexivity|]. split; [reflexivity|].
  split; [unfold same_raw; cbn; repeat split; assumption|]. split.
  - intros (_ & _ & _ & X & _). cbn in X. now symmetry.
  - intros X. unfold same_raw. cbn. rewrite X. repeat split; assumption.
Qed.

(** C116: the version of a GDB is the largest of those of its equations, 0 if it has
    none; they are read from the bytes passed, if any, and from its own data otherwise. *)
Lemma omapM_each {A B} (f : A -> out B) l : forall w bs, omapM f l = (w, Ok bs) -> Forall2 (fun a b => exists w', f a = (w', Ok b)) l bs.
Proof.
  induction l as [|a l IH]; intros w bs H; cbn [omapM] in H; [injection H as <- <-; constructor|].
  apply obind_ok in H as (w1 & b & w2 & E & H & _). apply obind_ok in H as (w3 & r & w4 & E2 & H & _). injection H as <- <-. constructor; eauto.
Qed.
Lemma max_is l : forall v, In (fold_left Z.max l v) (v :: l) /\ Forall (fun x => x <= fold_left Z.max l v) (v :: l).
Proof.
  induction l as [|x l IH]; intros v; [split; [now left|constructor; [apply Z.le_refl|constructor]]|]. cbn [fold_left]. destruct (IH (Z.max v x)) as (I & F). apply Forall_cons_iff in F as (M & F). split.
  - destruct I as [I|I]; [|right; now right]. rewrite <- I. destruct (Z.max_spec v x) as [(_ & ->)|(_ & ->)]; [right; now left|now left].
  - constructor; [clear - M; lia|]. constructor; [clear - M; lia|exact F].
Qed.
Lemma gv_gdb e arg : issubclass (e_cls e) KMonoGDB = true -> gv e arg = gdb_version OS os_gt os_ge INITIAL illegal_since os_of sheet e arg.
Proof.
  intros H. unfold get_version. cbn [version_in]. unfold plain_version. cbv zeta.
  assert (X : issubclass (e_cls e) KGroup = false /\ issubclass (e_cls e) KTokenized = false /\ issubclass (e_cls e) KComplexEntry = false /\ issubclass (e_cls e) KList = false /\ issubclass (e_cls e) KMatrix = false)
    by (clear - H; destruct (e_cls e); try discriminate H; repeat split).
  destruct X as (-> & -> & -> & -> & ->). cbn [orb]. now rewrite H.
Qed.
Theorem C116_gdb : forall e arg own w v, issubclass (e_cls e) KMonoGDB = true -> gv e arg = (w, Ok v) ->
  match arg with Some ((_ :: _) as d) => own = d | _ => own = py_slice (b_data (e_data e)) (Some (gdb_offset (e_cls e))) None end ->
  let qs := equations_of (e_cls e) own in
  (qs = [] -> v = 0) /\
  (qs <> [] -> exists q w', In q qs /\ graphed_version OS os_gt os_ge INITIAL illegal_since os_of sheet q = (w', Ok v)) /\
  (forall q, In q qs -> exists w' u, graphed_version OS os_gt os_ge INITIAL illegal_since os_of sheet q = (w', Ok u) /\ u <= v).
Proof.
  intros e arg own w v K H O qs. rewrite gv_gdb in H by exact K. unfold gdb_version in H. cbv zeta in H.
  replace (match arg with Some ((_ :: _) as d) => equations_of (e_cls e) d | _ => equations (e_cls e) (b_data (e_data e)) end) with qs in H by (destruct arg as [[|x d]|]; unfold qs; rewrite O; reflexivity).
  clearbody qs. clear O K. apply obind_ok in H as (w1 & vs & w2 & M & H & _). injection H as _ H. apply omapM_each in M. destruct M as [|q u qs vs Q M].
  - split; [now intros _|]. split; [now intros []|intros q []].
  - split; [discriminate|]. destruct (max_is vs u) as (I & F). rewrite H in I, F. assert (A : Forall2 (fun a b => exists w', graphed_version OS os_gt os_ge INITIAL illegal_since os_of sheet a = (w', Ok b)) (q :: qs) (u :: vs)) by (constructor; assumption).
    clear Q M H. split.
    + intros _. clear F. revert I. induction A as [|a b l m (w' & E) A IH]; [intros []|]. intros [->|I]; [exists a, w'; split; [now left|exact E]|]. destruct (IH I) as (a' & w'' & J & E'). exists a', w''. split; [now right|exact E'].
    + clear I. induction A as [|a b l m (w' & E) A IH]; [intros x []|]. apply Forall_cons_iff in F as (B & F). intros x [<-|I]; [exists w', b; auto|]. now apply IH.
Qed.
(** C115: a version that is passed to the constructor plays no part: the loaded one stays. *)
Theorem C115_given : forall c ff name v arch b wn blank,
  entry_new ns gv ps c ff name (Some v) arch [] = (wn, Ok blank) ->
  init c ff name (Some v) arch b = (wn ++ fst (load c b), snd (load c b)).
Proof.
  intros c ff name v arch b wn blank N. unfold entry_init. rewrite N. destruct (load c b) as [w [e|x]]; cbn [obind fst snd oret]; [|reflexivity]. now rewrite app_nil_r.
Qed.

(** ** Equations of GDBs *)

(** Loading bytes whose payload is shorter than announced. *)
Lemma load_short c t name v a n payload :
  is_byte t -> length name = 8%nat -> zlen payload < n < 65536 -> [v; a] <> le16 n ->
  entry_load ps c (le16 13 ++ le16 n ++ [t] ++ name ++ [v; a] ++ le16 n ++ payload) =
  do _ := type_check c t in do _ := (flash_warn a, Ok tt) in do _ := owarn WDataLength in
  finish ps (Entry c [13; 0] [t] name [v] [a] (Buf true payload)).
Proof.
  intros Bt Hn Hp Ha. pose proof (zlen_nonneg payload) as Hp0.
  destruct (list8 name Hn) as (n1&n2&n3&n4&n5&n6&n7&n8&->).
  assert (Ln : le_int (le16 n) = n) by (apply le_int_le16; lia).
  unfold le16 in *. set (x := n mod 256) in *. set (y := n / 256) in *.
  change (13 mod 256) with 13. change (13 / 256) with 0. cbn [app].
  unfold entry_load. rewrite ljust_id by (cbn [length]; lia). cbn [rd firstn skipn].
  rewrite (type_id_byte _ t) by (cbn; auto). rewrite obind_lift. apply obind_ext. intros _.
  change (meta_length _ =? 13) with true. cbv iota beta. rewrite obind_oret.
  apply leqb_false in Ha. change ([v] ++ [a]) with [v; a]. rewrite Ha. rewrite andb_false_r.
  rewrite archived_warn, obind_assoc. apply obind_ext. intros _.
  rewrite leqb_refl. cbn [negb]. rewrite obind_warn_false, obind_oret.
  rewrite Ln, firstn_all2 by (unfold zlen in Hp; lia).
  unfold calc_data_length, calc_data. cbn [with_data e_data b_data].
  assert (E : (zlen payload =? n) = false) by (apply Z.eqb_neq; lia). rewrite E. cbn [negb owarn_if]. reflexivity.
Qed.
(** C118: [equation()] of an equation of a GDB with flags [f] and tokens [p] is the
    equation with these tokens, the same name and archive flag, and the version of the
    tokens; the mismatch of the length is not reported. *)
Theorem C118_equation : forall e f p wn blank, e_cls e = KGraphedEquation -> storable e -> e_meta e = le16 13 -> e_type e = [3] ->
  ~ ambiguous e -> calc_data e = f :: le16 (zlen p) ++ p ->
  entry_new ns gv ps KEquation true (s2l "Y1") (Some 0) None [] = (wn, Ok blank) ->
  exists w e' wv v, equation e = (w, Ok e') /\ gv e' None = (wv, Ok v) /\
    e_cls e' = KEquation /\ e_meta e' = le16 13 /\ e_type e' = [3] /\ e_name e' = e_name e /\ e_archived e' = e_archived e /\
    e_version e' = [v] /\ calc_data e' = le16 (zlen p) ++ p /\ data e' = p /\ ~ In WDataLength w /\
    load_equation e e' = oret e.
Proof.
  intros e f p wn blank K St M T NA D B. destruct (st_vers e St) as (u & U & BU). destruct (st_arch e St) as (a & A & BA).
  pose proof (st_data e St) as SD. pose proof (zlen_nonneg p) as ZP. unfold calc_data in D.
  assert (N : zlen (b_data (e_data e)) = zlen p + 3).
  { rewrite D. unfold zlen. cbn [le16 app length]. lia. }
  set (P := le16 (zlen p) ++ p) in *.
  assert (NP : zlen P = zlen p + 2) by (unfold P, zlen; cbn [le16 app length]; lia).
  set (n := zlen p + 3) in *. set (h := le16 13 ++ le16 n ++ [3] ++ e_name e ++ [u; a] ++ le16 n).
  assert (EB : entry_bytes e = Ok (h ++ f :: P)).
  { rewrite entry_bytes_image by exact St. unfold image_of. rewrite T, M. change (leqb (le16 13) [13; 0]) with true. cbv iota.
    unfold entry_image. rewrite N, D, U, A. unfold h. rewrite <- !app_assoc. reflexivity. }
  set (e0 := Entry KEquation [13; 0] [3] (e_name e) [u] [a] (Buf true P)).
  assert (NV : [u; a] <> le16 n). { intros X. apply NA. split; [exact M|]. rewrite U, A, N. exact X. }
  assert (L : exists w0, entry_load ps KEquation (h ++ P) = (w0, Ok e0)).
  { unfold h. rewrite <- !app_assoc. rewrite load_short; [|unfold is_byte; lia|exact (st_name e St)|lia|exact NV].
    change (type_check KEquation 3) with (@oret unit tt). rewrite obind_oret. cbn [obind owarn].
    assert (VB : version e0 = Ok u) by (apply version_byte; [reflexivity|exact BU]).
    assert (FI : exists w0, finish ps e0 = (w0, Ok e0)).
    { unfold finish. change (coerce ps e0) with (oret e0). rewrite obind_oret, VB. unfold olift, owarn_if. cbn [obind].
      destruct (_ && _); (destruct (_ && _); eexists; reflexivity). }
    destruct FI as (wf & FI). fold e0. rewrite FI. eexists. reflexivity. }
  destruct L as (w0 & L).
  destruct (gv_total OS os_gt os_ge INITIAL illegal_since os_of sheet ns ps e0 None eq_refl) as (wv & v & G).
  destruct (init_ok KEquation (s2l "Y1") _ _ _ u wv v wn blank L eq_refl BU G B) as (w & I).
  assert (SL : py_slice (h ++ f :: P) None (Some (- n)) ++ py_slice (h ++ f :: P) (Some (- n + 1)) None = h ++ P).
  { assert (NN : n = Z.of_nat (length (f :: P))) by (change (length (f :: P)) with (S (length P)); rewrite Nat2Z.inj_succ; fold (zlen P); rewrite NP; unfold n; lia).
    f_equal.
    - rewrite NN. apply py_slice_drop; [reflexivity|cbn [length]; lia].
    - change (h ++ f :: P) with (h ++ [f] ++ P). rewrite app_assoc. unfold py_slice, slice_start, slice_stop, norm_idx.
      set (hf := h ++ [f]). assert (ZL : zlen (hf ++ P) = zlen hf + zlen P) by (unfold zlen; rewrite app_length; lia).
      pose proof (zlen_nonneg hf). rewrite ZL. assert (LT : (- n + 1 <? 0) = true) by (apply Z.ltb_lt; lia). rewrite LT.
      replace (Z.max (- n + 1 + (zlen hf + zlen P)) 0) with (zlen hf) by (rewrite NP; unfold n; lia).
      replace (zlen hf + zlen P - zlen hf) with (zlen P) by lia. rewrite !to_nat_zlen, skipn_app_exact by reflexivity. apply firstn_all. }
  unfold graphed_equation. rewrite EB. unfold olift. cbn [obind]. unfold calc_data_length, calc_data. rewrite N. fold n. rewrite SL, I. cbn [fst snd].
  eexists. exists (with_version e0 [v]), wv, v. split; [reflexivity|].
  split; [rewrite gv_tokenized by reflexivity; rewrite gv_tokenized in G by reflexivity; exact G|].
  split; [reflexivity|]. split; [reflexivity|]. split; [reflexivity|]. split; [reflexivity|]. split; [now rewrite A|].
  split; [reflexivity|]. split; [reflexivity|]. split.
  { unfold data. cbn. unfold view_get. cbn. rewrite py_slice_from by lia. reflexivity. }
  split. { intros X. apply filter_In in X as (_ & X). discriminate X. }
  unfold load_equation. rewrite (st_mut e St). unfold calc_data. rewrite D. unfold oret. f_equal. f_equal.
  pose proof (st_mut e St) as MU. destruct e as [c1 m1 t1 n1 v1 a1 [mu da]]. cbn in *. subst mu da. reflexivity.
Qed.
(** C118: data that cannot be changed are refused; and of the warnings only those about
    the length are dropped. *)
Theorem C118_immutable : forall e x, b_mut (e_data e) = false -> load_equation e x = oerr TypeError.
Proof. intros e x H. unfold load_equation. now rewrite H. Qed.
Theorem C118_warnings : forall e b w r, entry_bytes e = Ok b ->
  init KEquation true (s2l "Y1") None None (py_slice b None (Some (- zlen (calc_data e))) ++ py_slice b (Some (- zlen (calc_data e) + 1)) None) = (w, r) ->
  exists w', equation e = (w', r) /\ forall x, In x w' <-> In x w /\ x <> WDataLength.
Proof.
  intros e b w r B I. unfold graphed_equation. rewrite B. unfold olift. cbn [obind]. unfold calc_data_length. rewrite I. cbn [fst snd].
  eexists. split; [reflexivity|]. intros x. cbn [app]. rewrite filter_In. split; (intros (A & C); split; [exact A|]); [intros ->; discriminate C|destruct x; (reflexivity || now destruct C)].
Qed.
End Load.
Print Assumptions C116_gdb.
Print Assumptions C115_given.
Print Assumptions C118_immutable.
Print Assumptions C118_warnings.
Print Assumptions C115_constructed.
Print Assumptions C116_recognised.
Print Assumptions C117_version_warning.
Print Assumptions C118_equation.

(** Samples: the two-token sheet of P_Tok. *)
Definition gvz := get_version Z Z.gtb Z.geb 0 0 os0 sheet0 ns0 ps0.
Definition fromz := entry_from Z Z.gtb Z.geb 0 0 os0 sheet0 ns0 ps0.
Definition loadz := load_bytes Z Z.gtb Z.geb 0 0 os0 sheet0 ns0 ps0.
Definition equationz := graphed_equation Z Z.gtb Z.geb 0 0 os0 sheet0 ns0 ps0.
(** A program holding the newer of the two-letter tokens, with its version and with another. *)
Definition newer (v : Z) : entry := Entry KProgram [13; 0] [5] (ljust 8 (s2l "NEW")) [v] [0] (Buf true [3; 0; 187; 1; 65]).
Lemma newer_storable v : is_byte v -> storable (newer v).
Proof.
  intros B. split; cbn; auto.
  - exists 5. split; [reflexivity|unfold is_byte; lia].
  - exists v. auto.
  - exists 0. split; [reflexivity|unfold is_byte; lia].
  - discriminate.
  - unfold zlen. cbn. lia.
Qed.
Example C115_example : storable (newer 7) /\ loadable_as KProgram (newer 7) /\ ~ ambiguous (newer 7) /\
  (exists w x, entry_new ns0 gvz ps0 KProgram true (s2l "A") (Some 0) None [] = (w, Ok x)) /\
  exists w e', fromz KProgram (s2l "A") (newer 7) = (w, Ok e') /\ same_raw e' (newer 7).
Proof.
  split; [apply newer_storable; unfold is_byte; lia|]. split; [exists 5; split; [reflexivity|exact I]|].
  split; [intros (_ & X); vm_compute in X; discriminate X|]. split; [do 2 eexists; vm_compute; reflexivity|].
  do 2 eexists. split; [vm_compute; reflexivity|]. repeat split.
Qed.
(** A program whose version byte is another one is not reproduced. *)
Theorem C115_identity_refuted : exists e w e', storable e /\ loadable_as KProgram e /\ ~ ambiguous e /\
  fromz KProgram (s2l "A") e = (w, Ok e') /\ ~ same_raw e' e /\ In WVersionWrong w.
Proof.
  exists (newer 1). do 2 eexists. split; [apply newer_storable; unfold is_byte; lia|]. split; [exists 5; split; [reflexivity|exact I]|].
  split; [intros (_ & X); vm_compute in X; discriminate X|]. split; [vm_compute; reflexivity|].
  split; [intros (_ & _ & _ & X & _); discriminate X|]. cbn. tauto.
Qed.
Print Assumptions C115_identity_refuted.
Example C116_example : gvz (newer 7) None = oret 7 /\ ~ In 7 (versions KProgram) /\
  gvz (Entry KTIPicture [13; 0] [7] (zeros 8) [0] [0] (Buf true [])) None = oret 10 /\ In 10 (versions KTIPicture).
Proof. split; [vm_compute; reflexivity|]. split; [cbn; intuition discriminate|]. split; [vm_compute; reflexivity|cbn; auto]. Qed.
Example C117_example : exists w e, loadz KProgram (image_of (newer 3)) = (w, Ok e) /\ In WVersionWrong w /\
  exists w' e', loadz KProgram (image_of (newer 7)) = (w', Ok e') /\ ~ In WVersionWrong w'.
Proof.
  do 2 eexists. split; [vm_compute; reflexivity|]. split; [cbn; auto|]. do 2 eexists. split; [vm_compute; reflexivity|]. cbn. intuition discriminate.
Qed.
(** An equation of a GDB that is selected and graphs one token. *)
Definition graphed1 : entry := Entry KGraphedEquation [13; 0] [3] (ljust 8 [94; 16]) [0] [0] (Buf true [35; 2; 0; 187; 1]).
Example C118_example : e_cls graphed1 = KGraphedEquation /\ storable graphed1 /\ ~ ambiguous graphed1 /\
  calc_data graphed1 = 35 :: le16 2 ++ [187; 1] /\ (exists w x, entry_new ns0 gvz ps0 KEquation true (s2l "Y1") (Some 0) None [] = (w, Ok x)) /\
  exists w e', equationz graphed1 = (w, Ok e') /\ calc_data e' = [2; 0; 187; 1] /\ e_version e' = [7] /\ w = [WVersionWrong].
Proof.
  split; [reflexivity|]. split.
  { split; cbn; auto.
    - exists 3. split; [reflexivity|unfold is_byte; lia].
    - exists 0. split; [reflexivity|unfold is_byte; lia].
    - exists 0. split; [reflexivity|unfold is_byte; lia].
    - unfold zlen. cbn. lia. }
  split; [intros (_ & X); vm_compute in X; discriminate X|]. split; [reflexivity|].
  split; [do 2 eexists; vm_compute; reflexivity|]. do 2 eexists. split; [vm_compute; reflexivity|]. repeat split.
Qed.
