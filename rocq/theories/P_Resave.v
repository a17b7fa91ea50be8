(** C162: a file opened without a warning about its structure and saved again. *)
From Verif Require Import L_Base M_Data M_Flags M_Models M_Class M_Var S_Data L_Data L_Flags S_Var L_Models P_Models L_Var L_VarFile L_Complex P_Var P_Cut.

Lemma le16_bytes a b n : is_byte a -> is_byte b -> le_int [a; b] = n -> le16 n = [a; b].
Proof. unfold is_byte, le16. cbn [le_int]. intros A B <-. f_equal; [|f_equal]; lia. Qed.

(** The bytes of an entry that loads without such a warning have the shape of an entry. *)
Lemma silent_shape ps d w e : wf_bytes d -> 15 <= zlen d -> zlen d = 4 + le_int (firstn 2 d) + le_int (firstn 2 (skipn 2 d)) ->
  entry_load ps KEntry d = (w, Ok e) -> no_structural w ->
  (exists t name v a p, d = entry_image 13 t name [v; a] p /\ is_byte t /\ length name = 8%nat /\ is_byte v /\ is_byte a /\ zlen p < 65536 /\ [v; a] <> le16 (zlen p)) \/
  (exists t name p, d = entry_image 11 t name [] p /\ is_byte t /\ length name = 8%nat /\ zlen p < 65536).
Proof.
  intros W L15 LD H Q. unfold entry_load in H. revert H. set (D := ljust 17 d). 
  assert (ED : D = d ++ zeros (17 - length d)) by reflexivity. rewrite ED. clear D ED. generalize (17 - length d)%nat. intros k.
  do 13 (destruct d as [|? d]; [unfold zlen in L15; cbn in L15; lia|]). cbn [firstn skipn] in LD.
  cbn [rd app firstn skipn]. intros H.
  assert (WB : forall x, In x (z :: z0 :: z1 :: z2 :: z3 :: z4 :: z5 :: z6 :: z7 :: z8 :: z9 :: z10 :: z11 :: d) -> is_byte x) by (now apply Forall_forall).
  assert (B0 : is_byte z /\ is_byte z0 /\ is_byte z1 /\ is_byte z2 /\ is_byte z3) by (repeat split; apply WB; cbn; tauto).
  destruct B0 as (B0 & B1 & B2 & B3 & B4).
  assert (WD : forall x, In x d -> is_byte x) by (intros x I; apply WB; cbn; tauto). clear WB W.
  rewrite (type_id_byte _ z3) in H by auto. rewrite obind_lift in H. cbn [type_check type_id_of] in H.
  change (type_check KEntry z3) with (@oret unit tt) in H. rewrite obind_oret in H.
  apply obind_ok in H as (wm & p & w2 & HM & H & ->). destruct p as [[ver arch] d1].
  assert (QM : ~ In WMetaLength wm) by (intros I; specialize (Q WMetaLength (in_or_app _ _ _ (or_introl I))); discriminate Q).
  apply obind_ok in H as (wf & p & w3 & HF & H & ->). destruct p as [x d2].
  assert (QF : forall y, In y wf -> structural y = false) by (intros y I; apply Q; rewrite !in_app_iff; tauto).
  clear H Q w3 e. cbn [with_name e_cls e_meta e_type e_version e_archived e_data] in HM.
  assert (N0 : 0 <= le_int [z1; z2]) by (clear - B2 B3; unfold is_byte in *; cbn [le_int]; lia).
  assert (LL : le_int [z1; z2] < 65536) by (clear - B2 B3; unfold is_byte in *; cbn [le_int]; lia).
  assert (LZ : 13 + zlen d = 4 + le_int [z; z0] + le_int [z1; z2]) by (rewrite <- LD, !zlen_cons; lia). clear LD.
  assert (MM : (le_int [z; z0] = 13 /\ z = 13 /\ z0 = 0) \/ (le_int [z; z0] = 11 /\ z = 11 /\ z0 = 0) \/ (le_int [z; z0] <> 13 /\ le_int [z; z0] <> 11)).
  { clear - B0 B1. unfold is_byte in *. cbn [le_int]. lia. }
  destruct MM as [(M & -> & ->)|[(M & -> & ->)|(M1 & M2)]].
  - left. change (meta_length _ =? 13) with true in HM. cbv iota in HM.
    destruct d as [|z12 d]; [unfold zlen in LZ; cbn [length] in LZ; lia|]. destruct d as [|z13 d]; [unfold zlen in LZ; cbn [length] in LZ; lia|]. destruct d as [|z14 d]; [unfold zlen in LZ; cbn [length] in LZ; lia|]. destruct d as [|z15 d]; [unfold zlen in LZ; cbn [length] in LZ; lia|]. cbn [app rd firstn skipn] in HM. unfold oret in HM. injection HM as <- <- <- <-.
    change (meta_length _ =? 13) with true in HF. cbn [andb] in HF. change ([z12] ++ [z13]) with [z12; z13] in HF.
    destruct (leqb [z12; z13] [z1; z2]) eqn:EQ.
    { exfalso. apply obind_ok in HF as (? & ? & ? & O & _ & ->). unfold owarn in O. injection O as <- _. specialize (QF WNoFlash (or_introl eq_refl)). discriminate QF. }
    apply leqb_false in EQ. apply obind_ok in HF as (? & ? & ? & _ & HF & ->). apply obind_ok in HF as (? & ? & ? & O & _ & ->). cbn [app rd firstn skipn] in O.
    apply warn_if_ok in O; [|intros I; specialize (QF WDataLengthTwo ltac:(rewrite !in_app_iff; tauto)); discriminate QF].
    apply negb_false_iff, leqb_spec in O. injection O as -> ->.
    assert (ZP : le_int [z14; z15] = zlen d) by (rewrite !zlen_cons in LZ; lia).
    exists z3, [z4; z5; z6; z7; z8; z9; z10; z11], z12, z13, d.
    rewrite <- ZP. rewrite (le16_bytes z14 z15 _ B2 B3 eq_refl). unfold entry_image. rewrite <- ZP, (le16_bytes z14 z15 _ B2 B3 eq_refl).
    split; [reflexivity|]. split; [exact B4|]. split; [reflexivity|]. split; [apply WD; cbn; tauto|]. split; [apply WD; cbn; tauto|]. split; [exact LL|exact EQ].
  - right. change (meta_length _ =? 13) with false in HM. cbv iota in HM.
    match type of HM with context [meta_length ?y =? 11] => change (meta_length y =? 11) with true in HM end. cbv iota in HM. unfold oret in HM. injection HM as <- <- <- <-.
    destruct d as [|z12 d]; [unfold zlen in LZ; cbn [length] in LZ; lia|]. destruct d as [|z13 d]; [unfold zlen in LZ; cbn [length] in LZ; lia|]. cbn [app] in HF.
    change (meta_length _ =? 13) with false in HF. cbn [andb] in HF.
    apply obind_ok in HF as (? & ? & ? & _ & HF & ->). apply obind_ok in HF as (? & ? & ? & O & _ & ->). cbn [app rd firstn skipn] in O.
    apply warn_if_ok in O; [|intros I; specialize (QF WDataLengthTwo ltac:(rewrite !in_app_iff; tauto)); discriminate QF].
    apply negb_false_iff, leqb_spec in O. injection O as -> ->.
    assert (ZP : le_int [z12; z13] = zlen d) by (rewrite !zlen_cons in LZ; lia).
    exists z3, [z4; z5; z6; z7; z8; z9; z10; z11], d. unfold entry_image. rewrite <- ZP, (le16_bytes z12 z13 _ B2 B3 eq_refl).
    split; [reflexivity|]. split; [exact B4|]. split; [reflexivity|exact LL].
  - exfalso. match type of HM with context [meta_length ?y =? 13] => assert (ML : meta_length y = le_int [z; z0]) by reflexivity; rewrite ML in HM end.
    replace (le_int [z; z0] =? 13) with false in HM by lia. replace (le_int [z; z0] =? 11) with false in HM by lia.
    apply obind_ok in HM as (? & ? & ? & O & _ & ->). unfold owarn in O. injection O as <- _. apply QM. now left.
Qed.

Lemma set_type_one e v w e' : set_type_id e v = (w, Ok e') -> (exists t, e_type e' = [t]) /\ e_data e' = e_data e.
Proof.
  intros H. unfold set_type_id in H. apply obind_ok in H as (? & b & ? & S & H & _). injection H as _ <-. split; [|reflexivity].
  unfold section_set_raw in S. apply obind_ok in S as (? & y & ? & _ & S & _). cbn [with_type e_type].
  unfold fit_section in S. apply obind_ok in S as (? & ? & ? & _ & S & _). injection S as _ S.
  assert (L : length b = 1%nat) by (rewrite <- S; destruct y as [|? [|? ?]]; reflexivity).
  destruct b as [|t [|? ?]]; try discriminate L. now exists t.
Qed.

(** What [coerce] of an untyped entry does to the type byte and the data: the data change
    only together with the type byte. *)
Lemma coerce_own_data ps e w e' t : coerce_own ps e = (w, Ok e') -> e_type e = [t] -> is_byte t ->
  (exists t', e_type e' = [t']) /\ (e_type e' = [t] -> e_data e' = e_data e).
Proof.
  intros H T B. unfold coerce_own in H.
  destruct (issubclass (e_cls e) KProgram).
  { unfold coerce_program in H. inv_ok; eauto. }
  destruct (cls_eqb (e_cls e) KGraphedEquation).
  { unfold coerce_graphed in H. rewrite (type_id_byte _ t) in H by auto. rewrite obind_lift in H. destruct (t =? 35) eqn:E; [|inv_ok; eauto].
    apply Z.eqb_eq in E. subst t. apply obind_ok in H as (? & b & ? & _ & H & _). cbv zeta in H.
    rewrite (set_type_ok _ 35 3) in H by (auto; lia). unfold oret in H. injection H as _ <-. cbn [with_type e_type]. split; [eauto|]. intros Q. discriminate Q. }
  unfold coerce_list, coerce_complex, coerce_picture, coerce_mono_gdb, coerce_gdb in H. inv_ok; eauto;
  match goal with S : set_type_id _ _ = _ |- _ => apply set_type_one in S as [S1 S2]; auto end.
Qed.
Lemma coerce_data ps e w e' t : e_cls e = KEntry -> coerce ps e = (w, Ok e') -> e_type e = [t] -> is_byte t ->
  (exists t', e_type e' = [t']) /\ (e_type e' = [t] -> e_data e' = e_data e).
Proof.
  intros K H T B. unfold coerce in H. rewrite K in H. unfold coerce_base in H. rewrite (type_id_byte _ t) in H by auto. rewrite obind_lift in H.
  destruct (get_type t).
  - apply (coerce_own_data ps _ w e' t) in H; auto.
  - inv_ok; eauto.
Qed.

(** An entry that loads without a structural warning is its bytes, as an untyped entry, coerced. *)
Lemma silent_load ps d w e : wf_bytes d -> 15 <= zlen d -> zlen d = 4 + le_int (firstn 2 d) + le_int (firstn 2 (skipn 2 d)) ->
  entry_load ps KEntry d = (w, Ok e) -> no_structural w ->
  exists x wx, storable x /\ image_of x = d /\ e_cls x = KEntry /\ coerce ps x = (wx, Ok e).
Proof.
  intros W L LD H Q.
  assert (FIN : forall u x, finish ps x = (u, Ok e) -> exists wx, coerce ps x = (wx, Ok e)).
  { intros u x F. unfold finish in F. apply obind_ok in F as (wx & y & ? & C & F & _). inv_ok. eauto. }
  destruct (silent_shape ps d w e W L LD H Q) as [(t & name & v & a & p & -> & Bt & LN & Bv & Ba & LP & NA)|(t & name & p & -> & Bt & LN & LP)].
  - rewrite <- (app_nil_r (entry_image _ _ _ _ _)) in H. rewrite load_image_13 in H by auto.
    apply obind_ok in H as (? & ? & ? & _ & H & _). apply obind_ok in H as (? & ? & ? & _ & H & _). apply FIN in H as (wx & H).
    eexists. exists wx. split; [|split; [|split; [|exact H]]]; [|reflexivity|reflexivity].
    constructor; cbn; eauto. intros X; discriminate X.
  - rewrite <- (app_nil_r (entry_image _ _ _ _ _)) in H. rewrite load_image_11 in H by auto.
    apply obind_ok in H as (? & ? & ? & _ & H & _). apply FIN in H as (wx & H).
    eexists. exists wx. split; [|split; [|split; [|exact H]]]; [|reflexivity|reflexivity].
    constructor; cbn; eauto. 1,2: exists 0; split; [reflexivity|unfold is_byte; lia].
Qed.

Lemma silent_same ps d w e : wf_bytes d -> 15 <= zlen d -> zlen d = 4 + le_int (firstn 2 d) + le_int (firstn 2 (skipn 2 d)) ->
  entry_load ps KEntry d = (w, Ok e) -> no_structural w -> e_type e = [nth 4 d 0] -> storable e /\ image_of e = d.
Proof.
  intros W L LD H Q T2. destruct (silent_load ps d w e W L LD H Q) as (x & wx & S & I & K & C).
  pose proof (coerce_kept ps x wx e C) as (K1 & K2 & K3 & K4). pose proof S as [M (t & T & Bt) N V A NF D Mut].
  destruct (coerce_data ps x wx e t K C T Bt) as (_ & DD).
  assert (N4 : nth 4 d 0 = t).
  { rewrite <- I. unfold image_of. rewrite T. unfold entry_image, le16. reflexivity. }
  rewrite N4 in T2. specialize (DD T2).
  assert (SR : same_raw e x) by (unfold same_raw; repeat split; congruence).
  split; [eapply same_raw_storable; eauto|]. now rewrite (same_raw_image _ _ SR).
Qed.

(** Such an entry is saved as the bytes it came from exactly if its type byte was kept. *)
Theorem C162_entry : forall ps d w e, wf_bytes d -> 15 <= zlen d -> zlen d = 4 + le_int (firstn 2 d) + le_int (firstn 2 (skipn 2 d)) ->
  entry_load ps KEntry d = (w, Ok e) -> no_structural w -> (entry_bytes e = Ok d <-> e_type e = [nth 4 d 0]).
Proof.
  intros ps d w e W L LD H Q. destruct (silent_load ps d w e W L LD H Q) as (x & wx & S & I & K & C).
  pose proof (coerce_kept ps x wx e C) as (K1 & K2 & K3 & K4). pose proof S as [M (t & T & Bt) N V A NF D Mut].
  destruct (coerce_data ps x wx e t K C T Bt) as ((t' & T') & DD).
  assert (N4 : nth 4 d 0 = t).
  { rewrite <- I. unfold image_of. rewrite T. unfold entry_image, le16. reflexivity. }
  rewrite N4, T'. split.
  - intros E. unfold entry_bytes in E. destruct (raw_calc_data_length e) as [l|] eqn:EL; [|discriminate E]. cbn [rbind] in E.
    assert (LL : length l = 2%nat) by (unfold raw_calc_data_length, to_bytes_le in EL; destruct (fits 2 _); [|discriminate EL]; injection EL as <-; reflexivity).
    injection E as E. rewrite <- E in N4.
    assert (LM : length (e_meta e) = 2%nat) by (first [rewrite K1 | rewrite <- K1]; destruct M as [M|M]; rewrite M; reflexivity).
    rewrite T' in N4. destruct (e_meta e) as [|? [|? [|? ?]]]; try discriminate LM. destruct l as [|? [|? [|? ?]]]; try discriminate LL. cbn in N4. congruence.
  - intros E. destruct (silent_same ps d w e W L LD H Q ltac:(congruence)) as [SE IE]. now rewrite entry_bytes_image, IE.
Qed.
Print Assumptions C162_entry.

Section Load.
  Variable ns : cls -> str -> out bytes.
  Variable gv : entry -> option bytes -> out Z.
  Variable ps : bytes -> option bool.
  Variable order : model -> Z.
  Variable so : list model -> list model.

(** A file opened without such a warning and saved again gives the bytes it was read from,
    up to and including the checksum, if every entry kept its type byte. *)
Theorem C162_file : forall v b w v', wf_bytes b -> var_load ns gv ps order so v b = (w, Ok v') -> no_structural w ->
  exists hd n ds c rest, b = hd ++ n ++ concat ds ++ c ++ rest /\ length hd = 53%nat /\ length n = 2%nat /\ zlen (concat ds) = le_int n /\ length c = 2%nat /\
    length ds = length (v_entries v') /\
    (Forall2 (fun d e => e_type e = [nth 4 d 0]) ds (v_entries v') -> var_bytes v' = Ok (hd ++ n ++ concat ds ++ c)).
Proof.
  intros v b w v' W H Q.
  assert (NL : forall x, In x w -> ~ length_warning x).
  { intros x I L. specialize (Q x I). unfold length_warning in L. destruct L as [L|[L|[L|L]]]; subst x; discriminate Q. }
  destruct (C161_full ns gv ps order so v b w v' W H NL) as (hd & n & ds & c & rest & E & L1 & L2 & L3 & L4 & CK & HV & F).
  exists hd, n, ds, c, rest. repeat (split; [assumption|]).
  assert (WD : Forall wf_bytes ds).
  { assert (WC : wf_bytes (concat ds)) by (rewrite E in W; unfold wf_bytes in *; rewrite !Forall_app in W; tauto).
    clear - WC. induction ds as [|d ds IH]; [constructor|]. cbn [concat] in WC. unfold wf_bytes in WC. apply Forall_app in WC as [A B]. constructor; auto. }
  assert (WN : wf_bytes n) by (rewrite E in W; unfold wf_bytes in *; rewrite !Forall_app in W; tauto).
  split; [clear - F; induction F; cbn [length]; congruence|]. intros T.
  assert (M : rmapM entry_bytes (v_entries v') = Ok ds /\ entry_length v' = zlen (concat ds)).
  { unfold entry_length. clear - F T WD Q. induction F as [|d e ds es OW F IH]; [split; reflexivity|]. destruct OW as ((O1 & O2) & w' & EL & I).
    inversion T; subst. inversion WD; subst. destruct IH as [IH1 IH2]; auto.
    assert (Q' : no_structural w') by (intros y Y; apply Q; now apply I).
    destruct (silent_same ps d w' e) as [SE IE]; auto.
    split.
    - cbn [rmapM]. rewrite (entry_bytes_image e SE), IE, IH1. reflexivity.
    - cbn [map concat]. rewrite zlen_app, <- IH2, (entry_len_image e SE), IE. reflexivity. }
  destruct M as [M1 M2]. unfold var_bytes. rewrite M1, M2, CK, L3.
  assert (N : to_bytes_le (le_int n) 2 = Ok n).
  { unfold to_bytes_le. pose proof (le_bytes_le_int n WN) as X. rewrite L2 in X. rewrite X.
    assert (Y : fits 2 (le_int n) = true); [|now rewrite Y]. apply fits_spec. change (256 ^ Z.of_nat 2) with 65536.
    destruct n as [|n0 [|n1 [|? ?]]]; try discriminate L2. inversion WN as [|? ? Y0 WN']; subst. inversion WN' as [|? ? Y1 ?]; subst. clear - Y0 Y1. unfold is_byte in *. cbn [le_int]. lia. }
  rewrite N. cbn [rbind]. rewrite HV. do 2 f_equal.
  apply fitted_exact. rewrite L1. apply header_load_bytes.
Qed.
End Load.
Print Assumptions C162_file.

(** Two entries, one without flash bytes, and a byte after the checksum. *)
Example C162_example : exists hd w v', length hd = 53%nat /\
  let ds := [image_of hello; image_of flashless] in
  let b := hd ++ le16 (zlen (concat ds)) ++ concat ds ++ le16 (zsum (concat ds) mod 65536) in
  wf_bytes (b ++ [7]) /\ var_load ns0 gv0 ps0 model_index so0 (Var some_header [] None) (b ++ [7]) = (w, Ok v') /\ no_structural w /\
  Forall2 (fun d e => e_type e = [nth 4 d 0]) ds (v_entries v') /\ var_bytes v' = Ok b.
Proof.
  exists (header_bytes some_header). do 2 eexists. split; [reflexivity|]. cbv zeta.
  split; [apply Forall_forall; intros z I; vm_compute in I; unfold is_byte; repeat (destruct I as [<-|I]; [lia|]); destruct I|].
  split; [vm_compute; reflexivity|]. split; [intros x I; vm_compute in I; tauto|].
  split; [repeat constructor|]. vm_compute. reflexivity.
Qed.
(** An entry whose type byte is replaced on opening: a complex number whose imaginary part has
    another type, in a file with the checksum of what it is replaced by.  It opens without any
    warning and is saved as different bytes. *)
Theorem C162_type_refuted : exists b v' b', wf_bytes b /\ var_load ns0 gv0 ps0 model_index so0 (Var some_header [] None) b = ([], Ok v') /\
  var_bytes v' = Ok b' /\ length b' = length b /\ b' <> b.
Proof.
  set (d := entry_image 13 12 (65 :: zeros 7) [0; 0] ([12; 128; 0; 0; 0; 0; 0; 0; 0] ++ [27; 128; 0; 0; 0; 0; 0; 0; 0])).
  exists (header_bytes some_header ++ le16 (zlen d) ++ d ++ le16 ((zsum d + 15) mod 65536)). do 2 eexists.
  split; [apply Forall_forall; intros z I; vm_compute in I; unfold is_byte; repeat (destruct I as [<-|I]; [lia|]); destruct I|].
  split; [vm_compute; reflexivity|]. split; [vm_compute; reflexivity|]. split; [reflexivity|]. vm_compute. discriminate.
Qed.
Print Assumptions C162_type_refuted.
