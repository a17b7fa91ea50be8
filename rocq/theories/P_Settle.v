(** C163: what opening makes of a file is kept by saving and opening it again. *)
From Verif Require Import L_Base M_Data M_Flags M_Models M_Class M_Var S_Data L_Data L_Flags S_Var L_Models P_Models L_Var L_VarFile L_Complex P_Var P_Cut P_Resave.

Definition plain_type (t : Z) : bool := negb (existsb (Z.eqb t) [35; 1; 13; 12; 27; 29; 30; 31]).
Lemma plain_consistent t p : plain_type t = true -> consistent t p.
Proof.
  unfold plain_type, consistent, list_type, complex_type. intros H. apply negb_true_iff in H.
  assert (N : ~ In t [35; 1; 13; 12; 27; 29; 30; 31]).
  { intros I. assert (X : existsb (Z.eqb t) [35; 1; 13; 12; 27; 29; 30; 31] = true) by (apply existsb_exists; exists t; split; [exact I|lia]). congruence. }
  cbn [In] in *. split; [intros ->; tauto|]. split; intros; exfalso; tauto.
Qed.
(** The classes that the type bytes lead to. *)
Lemma type_classes t c : is_byte t -> get_type t = Some c ->
  (issubclass c KProgram = true -> plain_type t = true) /\ (issubclass c KList = true -> list_type t) /\
  (issubclass c KProgram = false -> cls_eqb c KGraphedEquation = false -> issubclass c KList = false -> issubclass c KComplexEntry = false -> plain_type t = true).
Proof.
  intros B G.
  assert (F : forallb (fun t => match get_type t with None => true | Some c =>
    (negb (issubclass c KProgram) || plain_type t) && (negb (issubclass c KList) || (t =? 1) || (t =? 13)) &&
    (issubclass c KProgram || cls_eqb c KGraphedEquation || issubclass c KList || issubclass c KComplexEntry || plain_type t) end) (map Z.of_nat (seq 0 256)) = true) by (vm_compute; reflexivity).
  rewrite forallb_forall in F. specialize (F t). rewrite G in F.
  assert (I : In t (map Z.of_nat (seq 0 256))) by (apply in_map_iff; exists (Z.to_nat t); split; [unfold is_byte in B; lia|apply in_seq; unfold is_byte in B; lia]).
  apply F in I. unfold list_type. cbn [In].
  destruct (issubclass c KProgram), (cls_eqb c KGraphedEquation), (issubclass c KList), (issubclass c KComplexEntry), (plain_type t); cbn in I; repeat split; intros; try discriminate; try reflexivity; try lia.
Qed.

Lemma bits_nth buf t : get_bits_at 9 0 6 buf = Ok t -> exists b, nth_error (b_data buf) 9 = Some b.
Proof.
  destruct buf as [m l]. intros H. destruct (nth_error (b_data (Buf m l)) 9) as [b|] eqn:N; [eauto|]. exfalso. cbn [b_data] in N.
  do 10 (destruct l as [|? l]; [discriminate H|]). discriminate N.
Qed.
Lemma other_types t : is_byte t -> (get_type t = None -> plain_type t = true) /\ (forall c, get_type t = Some c -> cls_eqb c KGraphedEquation = true -> t = 35).
Proof.
  intros B.
  assert (F : forallb (fun t => match get_type t with None => plain_type t | Some c => negb (cls_eqb c KGraphedEquation) || (t =? 35) end) (map Z.of_nat (seq 0 256)) = true) by (vm_compute; reflexivity).
  rewrite forallb_forall in F. specialize (F t).
  assert (I : In t (map Z.of_nat (seq 0 256))) by (apply in_map_iff; exists (Z.to_nat t); split; [unfold is_byte in B; lia|apply in_seq; unfold is_byte in B; lia]).
  apply F in I. split; [intros E; rewrite E in I; exact I|]. intros c E G. rewrite E, G in I. cbn in I. lia.
Qed.
Lemma view_set_mut n v o b w b' : view_set n v o b = (w, Ok b') -> b_mut b' = b_mut b.
Proof.
  unfold view_set. intros H. apply obind_ok in H as (? & ? & ? & _ & H & _). destruct (b_mut b) eqn:E; [|discriminate H]. now injection H as _ <-.
Qed.

(** The type byte and data that [coerce] leaves agree, unless the type byte is 0x23. *)
Lemma coerce_settled ps x w e t : e_cls x = KEntry -> coerce ps x = (w, Ok e) -> e_type x = [t] -> is_byte t ->
  b_mut (e_data e) = b_mut (e_data x) /\ exists t', e_type e = [t'] /\ is_byte t' /\ (t' = 35 \/ consistent t' (b_data (e_data e))).
Proof.
  intros K H T B. unfold coerce in H. rewrite K in H. unfold coerce_base in H. rewrite (type_id_byte _ t) in H by auto. rewrite obind_lift in H.
  destruct (other_types t B) as [O1 O2].
  destruct (get_type t) as [c|] eqn:G.
  2:{ apply obind_ok in H as (? & ? & ? & _ & H & _). unfold oret in H. injection H as _ <-. split; [reflexivity|]. exists t. split; [exact T|]. split; [exact B|]. right. apply plain_consistent. now apply O1. }
  destruct (type_classes t c B G) as (P1 & P2 & P3). specialize (O2 c eq_refl).
  assert (STAY : forall p, plain_type t = true -> t = 35 \/ consistent t p) by (intros p P; right; now apply plain_consistent).
  unfold coerce_own in H. cbn [with_cls e_cls] in H.
  destruct (issubclass c KProgram).
  { unfold coerce_program in H. inv_ok; (split; [reflexivity|]; exists t; auto). }
  destruct (cls_eqb c KGraphedEquation).
  { specialize (O2 eq_refl). subst t. unfold coerce_graphed in H. rewrite (type_id_byte _ 35) in H by auto. rewrite obind_lift in H. cbn [Z.eqb Pos.eqb] in H. cbv iota zeta in H.
    apply obind_ok in H as (? & b & ? & V & H & _). rewrite (set_type_ok _ 35 3) in H by (auto; lia). unfold oret in H. injection H as _ <-. cbn [with_type e_type e_data with_data].
    apply view_set_mut in V. split; [exact V|]. exists 3. split; [reflexivity|]. split; [unfold is_byte; lia|]. right. now apply plain_consistent. }
  destruct (issubclass c KList).
  { specialize (P2 eq_refl). assert (D : forall l, b_data (e_data x) = l -> zlen l < 3 -> False).
    { intros l EL ZL. unfold coerce_list in H. replace (data (with_cls x c)) with (@nil Z) in H; [discriminate H|].
      destruct x as [? ? ? ? ? ? [mu pl]]. cbn [e_data b_data] in EL. subst pl. unfold list_type in P2. cbn [In] in P2.
      destruct P2 as [<-|[<-|[]]]; injection G as <-; destruct l as [|? [|? [|? l]]]; try reflexivity; exfalso; unfold zlen in ZL; cbn [length] in ZL; lia. }
    assert (L3 : 3 <= zlen (b_data (e_data x))) by (destruct (Z.lt_ge_cases (zlen (b_data (e_data x))) 3) as [Q|Q]; [exfalso; exact (D _ eq_refl Q)|exact Q]).
    assert (C : consistent t (b_data (e_data x))).
    { unfold consistent. split; [unfold list_type in P2; cbn [In] in P2; lia|]. split; [auto|]. unfold complex_type. unfold list_type in P2. cbn [In] in *. intros X. exfalso. clear - P2 X. lia. }
    clear D. unfold coerce_list in H. inv_ok; (split; [reflexivity|]; exists t; auto). }
  destruct (issubclass c KComplexEntry).
  { unfold coerce_complex in H. apply obind_ok in H as (? & t' & ? & BT & H & _).
    assert (BT' : get_bits_at 9 0 6 (e_data x) = Ok t') by (destruct (get_bits_at 9 0 6 (e_data (with_cls x c))) eqn:X; [injection BT as _ <-; exact X|discriminate BT]).
    destruct (bits_nth _ _ BT') as (b & N). change 9 with (Z.of_nat 9) in BT'. rewrite (get_bits_at_nth _ _ _ N) in BT'. injection BT' as BT'.
    assert (R : 0 <= t' < 64) by (clear - BT'; lia). rewrite (set_type_ok _ t t') in H by auto. rewrite obind_oret in H.
    assert (TB : is_byte t') by (unfold is_byte; lia). rewrite (type_id_byte _ t') in H by auto. rewrite obind_lift in H.
    assert (E : e_data e = e_data x /\ e_type e = [t']) by (destruct (get_type t'); inv_ok; split; reflexivity). destruct E as [E1 E2].
    split; [now rewrite E1|]. exists t'. split; [exact E2|]. split; [exact TB|]. rewrite E1.
    destruct (Z.eq_dec t' 35) as [Q|Q]; [now left|right]. split; [exact Q|]. split; [|intros _; eauto]. intros _.
    assert (L : (9 < length (b_data (e_data x)))%nat) by (apply nth_error_Some; congruence). unfold zlen. lia. }
  specialize (P3 eq_refl eq_refl eq_refl eq_refl).
  unfold coerce_picture, coerce_mono_gdb, coerce_gdb in H. inv_ok; (split; [reflexivity|]; exists t; auto).
Qed.

Section Load.
  Variable ns : cls -> str -> out bytes.
  Variable gv : entry -> option bytes -> out Z.
  Variable ps : bytes -> option bool.
  Variable order : model -> Z.
  Variable so : list model -> list model.

(** An entry loaded without a structural warning, not left with type 0x23 nor with flash
    bytes that look like its length, is one that files restore. *)
Lemma silent_restorable d w e b : wf_bytes d -> own_length d -> entry_load ps KEntry d = (w, Ok e) -> no_structural w ->
  entry_bytes e = Ok b -> e_type e <> [35] -> ~ ambiguous e -> restorable e.
Proof.
  intros W [L1 L2] H Q E N A. destruct (silent_load ps d w e W L1 L2 H Q) as (x & wx & S & I & K & C).
  pose proof (coerce_kept ps x wx e C) as (K1 & K2 & K3 & K4). destruct S as [M (t & T & Bt) LN V AR NF D Mut].
  destruct (coerce_settled ps x wx e t K C T Bt) as (MU & t' & T' & Bt' & CO).
  assert (LD : zlen (b_data (e_data e)) < 65536).
  { unfold entry_bytes, raw_calc_data_length, calc_data_length, calc_data, to_bytes_le in E.
    destruct (fits 2 (zlen (b_data (e_data e)))) eqn:F; [|discriminate E]. apply fits_spec in F. change (256 ^ Z.of_nat 2) with 65536 in F. lia. }
  split; [|split; [exact A|]].
  - constructor; rewrite ?K1, ?K2, ?K3, ?K4; auto; [eauto|congruence].
  - exists t'. split; [exact T'|]. destruct CO as [->|CO]; [contradiction|exact CO].
Qed.

(** Opening any file without such a warning and saving it gives a file that is opened
    without one, to the same entries, and saved as it is. *)
Theorem C163_settled : forall v b w v' b1 m w0 e0, wf_bytes b -> var_load ns gv ps order so v b = (w, Ok v') -> no_structural w ->
  Forall (fun e => e_type e <> [35] /\ ~ ambiguous e) (v_entries v') -> var_bytes v' = Ok b1 ->
  entry_default ns gv ps = (w0, Ok e0) -> no_structural w0 -> snd (model_check order so m (v_header v')) = Ok tt ->
  exists w1 v1, var_load ns gv ps order so (Var (v_header v') [] m) b1 = (w1, Ok v1) /\ no_structural w1 /\
    v_header v1 = v_header v' /\ Forall2 same_raw (v_entries v1) (v_entries v') /\ var_bytes v1 = Ok b1.
Proof.
  intros v b w v' b1 m w0 e0 W H Q F E DE DQ MC.
  assert (NL : forall x, In x w -> ~ length_warning x).
  { intros x I L. specialize (Q x I). unfold length_warning in L. destruct L as [L|[L|[L|L]]]; subst x; discriminate Q. }
  destruct (C161_full ns gv ps order so v b w v' W H NL) as (hd & n & ds & c & rest & EB & L1 & L2 & L3 & L4 & CK & HV & FF).
  assert (WD : Forall wf_bytes ds).
  { assert (WC : wf_bytes (concat ds)) by (rewrite EB in W; unfold wf_bytes in *; rewrite !Forall_app in W; tauto).
    clear - WC. induction ds as [|d ds IH]; [constructor|]. cbn [concat] in WC. unfold wf_bytes in WC. apply Forall_app in WC as [A B]. constructor; auto. }
  assert (WH : wf_bytes hd) by (rewrite EB in W; unfold wf_bytes in *; rewrite !Forall_app in W; tauto).
  assert (HW : header_wf (v_header v')) by (rewrite HV; destruct (header_load_widths hd) as [X|X]; [exact X|contradiction]).
  assert (EL : entry_length v' < 65536).
  { unfold var_bytes, to_bytes_le in E. destruct (fits 2 (entry_length v')) eqn:X; [|discriminate E]. apply fits_spec in X. change (256 ^ Z.of_nat 2) with 65536 in X. lia. }
  assert (RM : exists bs, rmapM entry_bytes (v_entries v') = Ok bs).
  { unfold var_bytes in E. destruct (to_bytes_le (entry_length v') 2); [|discriminate E]. cbn [rbind] in E. destruct (rmapM entry_bytes (v_entries v')); [eauto|discriminate E]. }
  assert (R : Forall restorable (v_entries v')).
  { destruct RM as [bs RM]. clear - ns gv order so FF F WD Q RM. revert bs RM. induction FF as [|d e ds es OW FF IH]; intros bs RM; [constructor|].
    destruct OW as (O & w' & EL & I). inversion F as [|? ? [N A] F']; subst. inversion WD; subst.
    cbn [rmapM] in RM. destruct (entry_bytes e) as [b|] eqn:EB; [|discriminate RM]. cbn [rbind] in RM. destruct (rmapM entry_bytes es) as [bs'|] eqn:RM'; [|discriminate RM].
    constructor; [|eapply IH; eauto].
    apply (silent_restorable d w' e b); auto. intros y Y. apply Q. now apply I. }
  destruct (C14_var_roundtrip ns gv ps order so m v' b1 w0 e0 HW R EL DE DQ MC E) as (w1 & v1 & V1 & V2 & V3 & V4 & V5).
  exists w1, v1. split; [exact V1|]. split; [exact V5|]. split; [exact V2|]. split; [exact V4|].
  assert (SE : Forall storable (v_entries v')) by (eapply Forall_impl; [|exact R]; intros ? (?&_); auto).
  assert (SE1 : Forall storable (v_entries v1)) by (eapply Forall2_storable; eauto).
  assert (EL1 : entry_length v1 = entry_length v') by (rewrite !entry_length_spec by auto; now rewrite (Forall2_images _ _ V4)).
  rewrite var_bytes_image in E |- * by (auto; lia). now rewrite V2, (Forall2_images _ _ V4).
Qed.
End Load.
Print Assumptions C163_settled.

(** The file of C162_type_refuted settles after one round. *)
Definition settling : bytes :=
  let d := entry_image 13 12 (65 :: zeros 7) [0; 0] ([12; 128; 0; 0; 0; 0; 0; 0; 0] ++ [27; 128; 0; 0; 0; 0; 0; 0; 0]) in
  header_bytes some_header ++ le16 (zlen d) ++ d ++ le16 ((zsum d + 15) mod 65536).
Example C163_example : exists v' b1 e0 v1, wf_bytes settling /\ var_load ns0 gv0 ps0 model_index so0 (Var some_header [] None) settling = ([], Ok v') /\
  Forall (fun e => e_type e <> [35] /\ ~ ambiguous e) (v_entries v') /\ var_bytes v' = Ok b1 /\ b1 <> settling /\
  entry_default ns0 gv0 ps0 = ([], Ok e0) /\ var_load ns0 gv0 ps0 model_index so0 (Var some_header [] None) b1 = ([], Ok v1) /\ var_bytes v1 = Ok b1.
Proof.
  do 4 eexists. split; [apply Forall_forall; intros z I; vm_compute in I; unfold is_byte; repeat (destruct I as [<-|I]; [lia|]); destruct I|].
  split; [vm_compute; reflexivity|]. split; [repeat constructor; [discriminate|intros [_ X]; vm_compute in X; discriminate X]|].
  split; [vm_compute; reflexivity|]. split; [vm_compute; discriminate|]. split; [vm_compute; reflexivity|]. split; [vm_compute; reflexivity|]. vm_compute. reflexivity.
Qed.
(** With type 0x23 in the imaginary part of a complex number the entry changes twice: it
    becomes a graphed equation, and then an equation with its selected flag set. *)
Theorem C163_twice_refuted : exists d e1 d1 e2 d2, wf_bytes d /\ entry_load ps0 KEntry d = ([], Ok e1) /\ entry_bytes e1 = Ok d1 /\
  entry_load ps0 KEntry d1 = ([], Ok e2) /\ entry_bytes e2 = Ok d2 /\ d1 <> d /\ d2 <> d1 /\ nth 4 d1 0 = 35 /\ nth 4 d2 0 = 3.
Proof.
  exists (entry_image 13 12 (65 :: zeros 7) [0; 0] ([12; 128; 0; 0; 0; 0; 0; 0; 0] ++ [35; 128; 0; 0; 0; 0; 0; 0; 0])). do 4 eexists.
  split; [apply Forall_forall; intros z I; vm_compute in I; unfold is_byte; repeat (destruct I as [<-|I]; [lia|]); destruct I|].
  do 4 (split; [vm_compute; reflexivity|]). split; [vm_compute; discriminate|]. split; [vm_compute; discriminate|]. split; reflexivity.
Qed.
Print Assumptions C163_twice_refuted.
(** An empty graphed equation gains a byte, after which its flash bytes may look like its
    length: opened silently, saved, and then misread. *)
Theorem C163_grown_refuted : exists d e1 d1 w e2 d2, wf_bytes d /\ entry_load ps0 KEntry d = ([], Ok e1) /\ entry_bytes e1 = Ok d1 /\
  entry_load ps0 KEntry d1 = (w, Ok e2) /\ In WNoFlash w /\ entry_bytes e2 = Ok d2 /\ zlen d1 = zlen d + 1 /\ d2 <> d1.
Proof.
  exists (entry_image 13 35 (65 :: zeros 7) [1; 0] []). do 5 eexists.
  split; [apply Forall_forall; intros z I; vm_compute in I; unfold is_byte; repeat (destruct I as [<-|I]; [lia|]); destruct I|].
  do 3 (split; [vm_compute; reflexivity|]). split; [vm_compute; tauto|]. split; [vm_compute; reflexivity|]. split; [reflexivity|]. vm_compute. discriminate.
Qed.
Print Assumptions C163_grown_refuted.
