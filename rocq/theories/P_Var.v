(** Property theorems C11-C18, C21-C24: entries and var files.
    [ns], [gv], [ps] stand for the name encoder, the version function and the
    program text test, which depend on the token sheets. *)
From Verif Require Import L_Base M_Data M_Flags M_Models M_Class M_Var S_Data L_Data S_Var L_Models P_Models L_Var L_VarFile.

(** Concrete parameters for examples and witnesses. *)
Definition ns0 (c : cls) (s : str) : out bytes := oret s.
Definition gv0 (e : entry) (d : option bytes) : out Z := oret 0.
Definition ps0 (d : bytes) : option bool := Some false.
Definition so0 (l : list model) : list model := l.
Definition prog (name : str) (data : bytes) : entry :=
  Entry KProgram [13; 0] [5] (ljust 8 name) [4] [128] (Buf true ([zlen data; 0] ++ data)).
Definition hello : entry := prog (s2l "HELLO") [222; 42; 72; 73; 42].
Definition flashless : entry :=
  Entry KReal [11; 0] [0] (65 :: zeros 7) [0] [0] (Buf true [0; 128; 17; 0; 0; 0; 0; 0; 0]).
(** A program with version 1, not archived, and one byte of data. *)
Definition unlucky : entry := Entry KAppVar [13; 0] [21] (ljust 8 (s2l "X")) [5] [0] (Buf true [3; 0; 1; 2; 3]).
Ltac concrete := constructor; cbn;
  repeat match goal with
  | |- _ \/ _ => first [left; reflexivity | right; reflexivity]
  | |- exists _, _ => eexists
  | |- _ /\ _ => split
  | |- _ => first [reflexivity | discriminate | (unfold is_byte; lia)]
  end.
Lemma hello_storable : storable hello. Proof. concrete. Qed.
Lemma flashless_storable : storable flashless. Proof. concrete; intros; split; reflexivity. Qed.
Lemma unlucky_storable : storable unlucky. Proof. concrete. Qed.
Lemma hello_restorable : restorable hello.
Proof.
  split; [exact hello_storable|]. split; [intros [_ H]; vm_compute in H; discriminate|].
  exists 5. split; [reflexivity|]. split; [discriminate|]. split; intros H; vm_compute in H; intuition discriminate.
Qed.
Lemma flashless_restorable : restorable flashless.
Proof.
  split; [exact flashless_storable|]. split; [intros [H _]; discriminate H|].
  exists 0. split; [reflexivity|]. split; [discriminate|]. split; intros H; vm_compute in H; intuition discriminate.
Qed.

(** C11: serialise, then parse through any class [c]. *)
Theorem C11_entry_roundtrip : forall ps c e b, storable e -> loadable_as c e -> entry_bytes e = Ok b ->
  ((exists w e', entry_load ps c b = (w, Ok e') /\ same_raw e' e) <-> ~ ambiguous e).
Proof.
  intros ps c e b St Ld E. rewrite (entry_bytes_image e St) in E. injection E as <-.
  rewrite <- (app_nil_r (image_of e)). split.
  - intros (w & e' & H & SR) A. apply load_ambiguous in H as [H _]; auto. destruct SR as (SR & _), A as [A _].
    rewrite H, A in SR. discriminate SR.
  - intros NA. destruct (load_storable ps c e [] St NA Ld) as (w & e' & H & SR & _). eauto.
Qed.
Print Assumptions C11_entry_roundtrip.
(** The same for the class-independent loader of a var file. *)
Theorem C11_entry_roundtrip_generic : forall ps e b, storable e -> self_describing e -> entry_bytes e = Ok b ->
  ((exists w e', entry_load ps KEntry b = (w, Ok e') /\ same_raw e' e) <-> ~ ambiguous e).
Proof. intros ps e b St Sd. apply C11_entry_roundtrip; auto. Qed.
Print Assumptions C11_entry_roundtrip_generic.
(** Every storable entry serialises, to the documented layout. *)
Theorem C11_entry_layout : forall e, storable e -> entry_bytes e = Ok (image_of e).
Proof. exact entry_bytes_image. Qed.
Print Assumptions C11_entry_layout.
(** In the ambiguous case the entry comes back flashless, with a warning. *)
Theorem C11_ambiguous_loses_flash : forall ps c e b w e', storable e -> ambiguous e ->
  entry_bytes e = Ok b -> entry_load ps c b = (w, Ok e') -> e_meta e' = le16 11 /\ In WNoFlash w.
Proof.
  intros ps c e b w e' St A E H. rewrite (entry_bytes_image e St) in E. injection E as <-.
  rewrite <- (app_nil_r (image_of e)) in H. eapply load_ambiguous; eauto.
Qed.
Print Assumptions C11_ambiguous_loses_flash.
Theorem C11_roundtrip_refuted : exists e b, storable e /\ self_describing e /\ entry_bytes e = Ok b /\
  forall w e', entry_load ps0 KEntry b = (w, Ok e') -> ~ same_raw e' e.
Proof.
  exists unlucky. eexists. split; [exact unlucky_storable|]. split.
  - exists 21. split; [reflexivity|]. split; [discriminate|]. split; intros H; vm_compute in H; intuition discriminate.
  - split; [vm_compute; reflexivity|]. intros w e' H. vm_compute in H. injection H as _ <-. intros (S & _). discriminate S.
Qed.
Print Assumptions C11_roundtrip_refuted.
Example C11_example : storable hello /\ self_describing hello /\ ~ ambiguous hello /\ loadable_as KProgram hello /\
  exists w e', entry_load ps0 KEntry (image_of hello) = (w, Ok e') /\ e_cls e' = KProgram /\ same_raw e' hello.
Proof.
  destruct hello_restorable as (A & B & C). split; auto. split; auto. split; auto. split.
  - exists 5. split; [reflexivity|exact I].
  - do 2 eexists. split; [vm_compute; reflexivity|]. split; [reflexivity|repeat split].
Qed.

(** C12: parse, then serialise. *)
Theorem C12_entry_bytes_roundtrip : forall ps b, wf_entry b ->
  exists w e, entry_load ps KEntry b = (w, Ok e) /\ no_structural w /\ entry_bytes e = Ok b.
Proof.
  assert (G : forall ps e, restorable e -> exists w e', entry_load ps KEntry (image_of e) = (w, Ok e') /\ no_structural w /\ entry_bytes e' = Ok (image_of e)).
  { intros ps e (St & NA & Sd). destruct (load_storable ps KEntry e [] St NA Sd) as (w & e' & H & SR & Q).
    rewrite app_nil_r in H. exists w, e'. split; auto. split.
    - destruct (st_type e St) as (t & T & _). now apply (Q t).
    - rewrite entry_bytes_image by (eapply same_raw_storable; eauto). now rewrite (same_raw_image _ _ SR). }
  intros ps b H. inversion H; subst.
  - apply (G ps (Entry KEntry [13; 0] [t] name [v] [a] (Buf true p))). split; [|split].
    + constructor; cbn; eauto. intros X. discriminate X.
    + intros [_ X]. cbn in X. contradiction.
    + exists t. auto.
  - apply (G ps (Entry KEntry [11; 0] [t] name [0] [0] (Buf true p))). split; [|split].
    + constructor; cbn; auto; try (eexists; split; [reflexivity|unfold is_byte; lia]). eauto.
    + intros [X _]. discriminate X.
    + exists t. auto.
Qed.
Print Assumptions C12_entry_bytes_roundtrip.
(** Outside the self-describing entries the identity fails: a complex entry
    whose imaginary part carries another type. *)
Theorem C12_complex_refuted : exists b w e, length b = 35%nat /\
  entry_load ps0 KEntry b = (w, Ok e) /\ w = [] /\ entry_bytes e <> Ok b.
Proof.
  exists (entry_image 13 12 (65 :: zeros 7) [0; 0] ([12; 128; 0; 0; 0; 0; 0; 0; 0] ++ [27; 128; 0; 0; 0; 0; 0; 0; 0])).
  do 2 eexists. split; [reflexivity|]. split; [vm_compute; reflexivity|]. split; [reflexivity|]. vm_compute. discriminate.
Qed.
Print Assumptions C12_complex_refuted.
Example C12_example : wf_entry (image_of hello) /\ wf_entry (image_of flashless).
Proof.
  split.
  - apply (wf_entry_flash 5 (ljust 8 (s2l "HELLO")) 4 128 [5; 0; 222; 42; 72; 73; 42]); try reflexivity; try (unfold is_byte; lia).
    + discriminate. + destruct hello_restorable as (_ & _ & t & T & C). injection T as <-. exact C.
  - apply (wf_entry_flashless 0 (65 :: zeros 7) [0; 128; 17; 0; 0; 0; 0; 0; 0]); try reflexivity; try (unfold is_byte; lia).
    destruct flashless_restorable as (_ & _ & t & T & C). injection T as <-. exact C.
Qed.

(** C13: lengths. *)
Theorem C13_entry_len : forall e b, storable e -> entry_bytes e = Ok b -> entry_len e = zlen b.
Proof.
  intros e b St E. rewrite (entry_bytes_image e St) in E. injection E as <-. now apply entry_len_image.
Qed.
Print Assumptions C13_entry_len.
Theorem C13_next_entry_length : forall e b pre rest, storable e -> entry_bytes e = Ok b ->
  let s := Stream (pre ++ b ++ rest) (length pre) in
  next_entry_length s = ([], Ok (entry_len e, s)).
Proof.
  intros e b pre rest St E s. rewrite (C13_entry_len e b St E). rewrite (entry_bytes_image e St) in E. injection E as <-.
  apply next_len_image with (rest := rest); auto. unfold st_rest, s. cbn [st_buf st_pos]. now apply skipn_app_exact.
Qed.
Print Assumptions C13_next_entry_length.
(** On any four bytes the peek does not move the stream and reports the sum of
    the two words plus 4, warning on an unusual meta length. *)
Theorem C13_peek : forall s a b c d r, st_rest s = a :: b :: c :: d :: r ->
  next_entry_length s =
  ((if (a + 256 * b =? 11) || (a + 256 * b =? 13) then [] else [WMetaLength]),
   Ok (4 + (a + 256 * b) + (c + 256 * d), s)).
Proof. exact next_len_peek. Qed.
Print Assumptions C13_peek.
(** With fewer than four bytes left the stream is moved back. *)
Theorem C13_peek_short_refuted : exists s len s' w, (2 <= length (st_rest s))%nat /\
  next_entry_length s = (w, Ok (len, s')) /\ (st_pos s' < st_pos s)%nat.
Proof. exists (Stream [1; 2; 3; 13; 0] 3). do 3 eexists. split; [cbn; auto|]. split; [vm_compute; reflexivity|]. cbn. auto. Qed.
Print Assumptions C13_peek_short_refuted.
Example C13_example : entry_len hello = 24 /\ zlen (image_of hello) = 24 /\
  next_entry_length (Stream ([9; 9] ++ image_of hello ++ [7]) 2) = ([], Ok (24, Stream ([9; 9] ++ image_of hello ++ [7]) 2)).
Proof. repeat split; vm_compute; reflexivity. Qed.

(** C14: whole files. *)
Theorem C14_var_bytes : forall v, Forall storable (v_entries v) -> entry_length v < 65536 ->
  var_bytes v = Ok (file_image (header_bytes (v_header v)) (map image_of (v_entries v))).
Proof. exact var_bytes_image. Qed.
Print Assumptions C14_var_bytes.
Lemma model_check_warn order so m h : fst (model_check order so m h) = [] \/ fst (model_check order so m h) = [WModel].
Proof.
  unfold model_check. destruct m as [m|]; [|now left]. destruct (header_targets h) as [t|x]; [|now left]. cbn [olift obind].
  destruct (min_star order (so t)) as [t'|x]; [|now left]. cbn [olift obind]. unfold owarn_if.
  destruct (negb _); [now right|now left].
Qed.
(** [m] is the model the receiving file object was created for; when it is
    given, the compatibility check must not raise (see C20). *)
Theorem C14_var_roundtrip : forall ns gv ps order so m v b w0 e0,
  header_wf (v_header v) -> Forall restorable (v_entries v) -> entry_length v < 65536 ->
  entry_default ns gv ps = (w0, Ok e0) -> no_structural w0 ->
  snd (model_check order so m (v_header v)) = Ok tt ->
  var_bytes v = Ok b ->
  exists w v', var_load ns gv ps order so (Var (v_header v) [] m) b = (w, Ok v') /\
    v_header v' = v_header v /\ v_model v' = m /\ Forall2 same_raw (v_entries v') (v_entries v) /\ no_structural w.
Proof.
  intros ns gv ps order so m v b w0 e0 HW G L D Q MC E.
  assert (SE : Forall storable (v_entries v)) by (eapply Forall_impl; [|exact G]; intros ? (?&_); auto).
  rewrite var_bytes_image in E by auto. injection E as <-. rewrite entry_length_spec in L by auto.
  set (s := zsum (concat (map image_of (v_entries v))) mod 65536).
  destruct (var_load_image ns gv ps order so (Var (v_header v) [] m) (v_header v) (v_entries v) (s mod 256) (s / 256) [] w0 e0)
    as (w & es' & QW & SR & EL); auto. { apply model_check_warn. }
  rewrite app_nil_r in EL. cbn [v_model] in EL. fold s in EL. change [s mod 256; s / 256] with (le16 s) in EL.
  rewrite leqb_refl, app_nil_r in EL. do 2 eexists. split; [exact EL|]. auto.
Qed.
Print Assumptions C14_var_roundtrip.
Example C14_example :
  exists e0, entry_default ns0 gv0 ps0 = ([], Ok e0) /\
  Forall restorable [hello; flashless; hello] /\
  exists b w v', var_bytes (Var (some_header) [hello; flashless; hello] None) = Ok b /\
    var_load ns0 gv0 ps0 model_index so0 (Var (some_header) [] None) b = (w, Ok v') /\
    map e_cls (v_entries v') = [KProgram; KReal; KProgram] /\ w = [].
Proof.
  eexists. split; [vm_compute; reflexivity|]. split.
  - apply Forall_cons; [exact hello_restorable|]. apply Forall_cons; [exact flashless_restorable|]. apply Forall_cons; [exact hello_restorable|]. constructor.
  - do 3 eexists. split; [vm_compute; reflexivity|]. split; [vm_compute; reflexivity|]. split; reflexivity.
Qed.

(** C15: the checksum. *)
Theorem C15_checksum_value : forall v, Forall storable (v_entries v) ->
  checksum v = Ok (le16 (fold_right Z.add 0 (concat (map image_of (v_entries v))) mod 65536)).
Proof. exact checksum_spec. Qed.
Print Assumptions C15_checksum_value.
(** Whatever two bytes stand in the place of the checksum, and whatever follows
    them, the warning is emitted exactly when they are not the sum. *)
Theorem C15_warning_iff : forall ns gv ps order so h es c1 c2 rest w0 e0,
  header_wf h -> Forall restorable es -> zlen (concat (map image_of es)) < 65536 ->
  entry_default ns gv ps = (w0, Ok e0) -> no_structural w0 ->
  exists w v', var_load ns gv ps order so (Var h [] None)
      (header_bytes h ++ le16 (zlen (concat (map image_of es))) ++ concat (map image_of es) ++ [c1; c2] ++ rest) = (w, Ok v') /\
    Forall2 same_raw (v_entries v') es /\
    (In WChecksum w <-> [c1; c2] <> le16 (fold_right Z.add 0 (concat (map image_of es)) mod 65536)).
Proof.
  intros ns gv ps order so h es c1 c2 rest w0 e0 HW G L D Q.
  destruct (var_load_image ns gv ps order so (Var h [] None) h es c1 c2 rest w0 e0) as (w & es' & QW & SR & EL); auto.
  do 2 eexists. split; [exact EL|]. split; [exact SR|]. change (fold_right Z.add 0 ?l) with (zsum l).
  destruct (leqb [c1; c2] _) eqn:E.
  - apply leqb_spec in E. rewrite app_nil_r. split; [|tauto]. intros I. apply QW in I. discriminate I.
  - apply leqb_false in E. split; auto. intros _. apply in_or_app. right. now left.
Qed.
Print Assumptions C15_warning_iff.
(** A file in which one data byte of one entry was changed is reported. *)
Theorem C15_single_byte : forall ns gv ps order so h es1 e es2 d1 x d2 y w0 e0,
  let e' := with_data e (Buf true (d1 ++ y :: d2)) in
  header_wf h -> Forall restorable es1 -> restorable e -> Forall restorable es2 ->
  b_data (e_data e) = d1 ++ x :: d2 -> is_byte x -> is_byte y -> x <> y -> self_describing e' ->
  zlen (concat (map image_of (es1 ++ e :: es2))) < 65536 ->
  entry_default ns gv ps = (w0, Ok e0) -> no_structural w0 ->
  exists pre post, file_image (header_bytes h) (map image_of (es1 ++ e :: es2)) = pre ++ x :: post /\
    zlen pre = 55 + zlen (concat (map image_of es1)) + (zlen (image_of e) - zlen (b_data (e_data e))) + zlen d1 /\
    exists w v', var_load ns gv ps order so (Var h [] None) (pre ++ y :: post) = (w, Ok v') /\ In WChecksum w.
Proof.
  intros ns gv ps order so h es1 e es2 d1 x d2 y w0 e0 e' HW G1 G G2 Ed Bx By Nxy Sd L D Q.
  destruct G as (St & NA & _).
  assert (Zl : zlen (d1 ++ y :: d2) = zlen (b_data (e_data e))).
  { rewrite Ed, !zlen_app, !zlen_cons. reflexivity. }
  assert (G' : restorable e').
  { split; [|split; auto].
    - destruct St as [M T N V A NF Dd Mut]. constructor; cbn; auto. rewrite Zl. exact Dd.
    - intros [A1 A2]. apply NA. split; auto. cbn in A2. rewrite Zl in A2. exact A2. }
  set (front := fun p => le16 (if leqb (e_meta e) [13; 0] then 13 else 11) ++ le16 (zlen (b_data (e_data e))) ++ e_type e ++ e_name e ++
     (if leqb (e_meta e) [13; 0] then e_version e ++ e_archived e else []) ++ le16 (zlen (b_data (e_data e))) ++ p).
  destruct (st_type e St) as (t & T & _).
  assert (I1 : image_of e = front (d1 ++ x :: d2)) by (unfold image_of, front; rewrite T, Ed; reflexivity).
  assert (I2 : image_of e' = front (d1 ++ y :: d2)).
  { unfold image_of, front, e', entry_image. cbn [with_data e_type e_meta e_name e_version e_archived e_data b_data]. rewrite T, Zl. reflexivity. }
  assert (IL : zlen (image_of e') = zlen (image_of e)).
  { rewrite I1, I2. unfold front. now rewrite !zlen_app, !zlen_cons. }
  set (sum := fold_right Z.add 0 (concat (map image_of (es1 ++ e :: es2))) mod 65536).
  set (len := zlen (concat (map image_of (es1 ++ e :: es2)))) in *.
  assert (LL : zlen (concat (map image_of (es1 ++ e' :: es2))) = len).
  { unfold len. rewrite !map_app, !concat_app. cbn [map concat]. rewrite !zlen_app. now rewrite IL. }
  exists (header_bytes h ++ le16 len ++ concat (map image_of es1) ++ front d1), (d2 ++ concat (map image_of es2) ++ le16 sum).
  assert (FR : forall z, front (d1 ++ z :: d2) = front d1 ++ z :: d2).
  { intros z. unfold front. now rewrite <- !app_assoc. }
  split; [|split].
  - unfold file_image. fold len. fold sum. rewrite map_app, concat_app. cbn [map concat]. rewrite I1, FR.
    repeat rewrite <- app_assoc. cbn [app]. repeat rewrite <- app_assoc. reflexivity.
  - assert (LH : zlen (header_bytes h) = 53).
    { destruct HW as (A & B & (p & C & _) & E). unfold header_bytes, zlen. rewrite !app_length, A, B, C, E. reflexivity. }
    rewrite !zlen_app, LH. change (zlen (le16 len)) with 2.
    rewrite I1, FR, zlen_app, Ed, zlen_app. unfold front. rewrite !zlen_app, !zlen_cons. lia.
  - assert (G'' : Forall restorable (es1 ++ e' :: es2)) by (apply Forall_app; auto).
    destruct (C15_warning_iff ns gv ps order so h (es1 ++ e' :: es2) (sum mod 256) (sum / 256) [] w0 e0) as (w & v' & EL & _ & CK); auto.
    { rewrite LL. exact L. }
    exists w, v'. split.
    + rewrite <- EL. f_equal. rewrite app_nil_r. rewrite LL. rewrite map_app, concat_app. cbn [map concat]. rewrite I2, FR.
      repeat rewrite <- app_assoc. cbn [app]. repeat rewrite <- app_assoc. reflexivity.
    + apply CK. change [sum mod 256; sum / 256] with (le16 sum). intros Heq. apply le16_inj in Heq.
      unfold sum in Heq. rewrite !map_app, !concat_app in Heq. cbn [map concat] in Heq.
      change (fold_right Z.add 0) with zsum in Heq. rewrite !zsum_app, I1, I2, !FR, !zsum_app in Heq. cbn [zsum fold_right] in Heq.
      change (fold_right Z.add 0) with zsum in Heq. unfold is_byte in Bx, By.
      set (A := zsum (concat (map image_of es1))) in *. set (B := zsum (front d1)) in *. set (C := zsum d2) in *. set (E := zsum (concat (map image_of es2))) in *.
      clearbody A B C E. clear - Heq Bx By Nxy. lia.
Qed.
Print Assumptions C15_single_byte.
(** Without the self-describing condition the last claim is false: changing the
    type bits of the imaginary part of a complex number moves the type byte by
    the opposite amount, and the sum is the same. *)
Theorem C15_single_byte_refuted : exists file pre post w v',
  var_bytes (Var some_header [Entry KComplex [13; 0] [12] (65 :: zeros 7) [0] [0]
     (Buf true ([12; 128; 0; 0; 0; 0; 0; 0; 0] ++ [76; 128; 0; 0; 0; 0; 0; 0; 0]))] None) = Ok file /\
  file = pre ++ 76 :: post /\
  var_load ns0 gv0 ps0 model_index so0 (Var some_header [] None) (pre ++ 44 :: post) = (w, Ok v') /\ ~ In WChecksum w.
Proof.
  eexists. exists (firstn 81 (match var_bytes (Var some_header [Entry KComplex [13; 0] [12] (65 :: zeros 7) [0] [0]
     (Buf true ([12; 128; 0; 0; 0; 0; 0; 0; 0] ++ [76; 128; 0; 0; 0; 0; 0; 0; 0]))] None) with Ok f => f | _ => [] end)).
  exists (skipn 82 (match var_bytes (Var some_header [Entry KComplex [13; 0] [12] (65 :: zeros 7) [0] [0]
     (Buf true ([12; 128; 0; 0; 0; 0; 0; 0; 0] ++ [76; 128; 0; 0; 0; 0; 0; 0; 0]))] None) with Ok f => f | _ => [] end)).
  do 2 eexists. split; [vm_compute; reflexivity|]. split; [vm_compute; reflexivity|]. split; [vm_compute; reflexivity|].
  vm_compute. intros H. intuition discriminate.
Qed.
Print Assumptions C15_single_byte_refuted.
Example C15_example :
  let e := hello in
  b_data (e_data e) = [5; 0; 222; 42; 72] ++ 73 :: [42] /\ restorable e /\
  self_describing (with_data e (Buf true ([5; 0; 222; 42; 72] ++ 74 :: [42]))).
Proof.
  split; [reflexivity|]. split; [exact hello_restorable|]. exists 5. split; [reflexivity|].
  split; [discriminate|]. split; intros H; vm_compute in H; intuition discriminate.
Qed.

(** C16: the reported length is two short. *)
Theorem C16_len_two_short : forall v b, header_wf (v_header v) -> Forall storable (v_entries v) ->
  entry_length v < 65536 -> var_bytes v = Ok b -> var_len v + 2 = zlen b.
Proof.
  intros v b HW SE L E. rewrite var_bytes_image in E by auto. injection E as <-. unfold var_len, file_image.
  rewrite entry_length_spec by auto. rewrite !zlen_app. change (zlen (le16 ?n)) with 2.
  assert (LH : zlen (header_bytes (v_header v)) = 53).
  { destruct HW as (A & B & (p & C & _) & E). unfold header_bytes, zlen. rewrite !app_length, A, B, C, E. reflexivity. }
  lia.
Qed.
Print Assumptions C16_len_two_short.
Theorem C16_len_refuted : exists v b, var_bytes v = Ok b /\ var_len v <> zlen b.
Proof. exists (Var some_header [hello] None). eexists. split; [vm_compute; reflexivity|]. vm_compute. discriminate. Qed.
Print Assumptions C16_len_refuted.
Example C16_example : header_wf some_header /\ Forall storable [hello] /\
  entry_length (Var some_header [hello] None) = 24 /\ var_len (Var some_header [hello] None) = 79 /\
  rmap zlen (var_bytes (Var some_header [hello] None)) = Ok 81.
Proof.
  split. { unfold header_wf. repeat split. exists 10. split; [reflexivity|unfold is_byte; lia]. }
  split; [apply Forall_cons; [exact hello_storable|constructor]|]. repeat split; vm_compute; reflexivity.
Qed.

(** C17: adding an entry. *)
Theorem C17_add_entry_kept : forall ns gv ps v e, b_data (e_data e) <> [] ->
  exists w v', add_entry ns gv ps v (Some e) = (w, Ok v') /\
    v_entries v' = v_entries v ++ [e] /\ v_header v' = v_header v /\ v_model v' = v_model v.
Proof.
  intros ns gv ps v e N. unfold add_entry, is_empty, calc_data_length, calc_data.
  replace (zlen (b_data (e_data e)) =? 0) with false.
  - rewrite obind_oret. destruct (v_entries v); unfold owarn_if, oret; cbn [obind]; (do 2 eexists; split; [reflexivity|auto]).
  - destruct (b_data (e_data e)); [contradiction|]. rewrite zlen_cons. pose proof (zlen_nonneg b). lia.
Qed.
Print Assumptions C17_add_entry_kept.
(** An entry without data is replaced by a fresh one. *)
Theorem C17_empty_replaced : forall ns gv ps v e w0 e0, b_data (e_data e) = [] ->
  entry_default ns gv ps = (w0, Ok e0) ->
  exists w v', add_entry ns gv ps v (Some e) = (w, Ok v') /\ v_entries v' = v_entries v ++ [e0].
Proof.
  intros ns gv ps v e w0 e0 N D. unfold add_entry, is_empty, calc_data_length, calc_data. rewrite N.
  change (zlen (@nil Z) =? 0) with true. cbv iota. rewrite D. cbn [obind].
  destruct (v_entries v); unfold owarn_if, oret; cbn [obind]; (do 2 eexists; split; [reflexivity|auto]).
Qed.
Print Assumptions C17_empty_replaced.
Theorem C17_add_entry_refuted : exists v e w v', add_entry ns0 gv0 ps0 v (Some e) = (w, Ok v') /\
  v_entries v' <> v_entries v ++ [e].
Proof.
  exists (Var some_header [] None), (Entry KEntry [13; 0] [255] (ljust 8 (s2l "NOTES")) [0] [0] (Buf true [])).
  do 2 eexists. split; [vm_compute; reflexivity|]. vm_compute. discriminate.
Qed.
Print Assumptions C17_add_entry_refuted.
Example C17_example : exists v', add_entry ns0 gv0 ps0 (Var some_header [flashless] None) (Some hello) = ([WConflict], Ok v') /\
  v_entries v' = [flashless; hello].
Proof. eexists. split; vm_compute; reflexivity. Qed.

(** C18: loading terminates.  The loop's fuel is irrelevant once it is at least
    a quarter of the declared length, and a load that does not raise yields a
    bounded number of entries and leaves nothing of the declared length. *)
Theorem C18_loop_terminates : forall ns gv ps fuel left s v w left' s' v',
  wf_bytes (st_buf s) -> left <= 4 * Z.of_nat fuel ->
  load_entries ns gv ps fuel left s v = (w, Ok (left', s', v')) -> left' <= 0.
Proof. intros. edestruct load_entries_bound as [H2 _]; eauto. Qed.
Print Assumptions C18_loop_terminates.
Theorem C18_fuel_irrelevant : forall ns gv ps f1 f2 left s v, wf_bytes (st_buf s) ->
  left <= 4 * Z.of_nat f1 -> left <= 4 * Z.of_nat f2 ->
  load_entries ns gv ps f1 left s v = load_entries ns gv ps f2 left s v.
Proof. intros. now apply load_entries_fuel. Qed.
Print Assumptions C18_fuel_irrelevant.
Theorem C18_entry_count : forall ns gv ps order so v b w v', wf_bytes b ->
  var_load ns gv ps order so v b = (w, Ok v') ->
  zlen (v_entries v') <= (le_int (firstn 2 (skipn 53 b)) + 3) / 4.
Proof.
  intros ns gv ps order so v b w v' W H. unfold var_load in H.
  destruct (st_read 53 (Stream b 0)) as [hd s1] eqn:E1.
  pose proof (st_read_rest 53 (Stream b 0)) as R1. rewrite E1 in R1. cbn [snd] in R1. unfold st_rest in R1 at 2. cbn [st_pos st_buf skipn] in R1.
  apply st_read_wf in E1 as [_ B1]; [|exact W]. cbn [st_buf] in B1.
  destruct (st_read 2 s1) as [n s2] eqn:E2.
  assert (N : n = firstn 2 (skipn 53 b)).
  { unfold st_read in E2. injection E2 as <- _. now rewrite R1. }
  apply st_read_wf in E2 as [Wn B2]; [|now rewrite B1].
  apply obind_ok in H as (? & [[left' s3] v3] & ? & EL & H & _).
  apply obind_ok in H as (? & ? & ? & _ & H & _).
  destruct (st_read 2 s3) as [c s4].
  apply obind_ok in H as (? & ? & ? & _ & H & _). apply obind_ok in H as (? & ? & ? & _ & H & _).
  apply obind_ok in H as (? & ? & ? & _ & H & _). unfold oret in H. injection H as _ <-.
  apply le_int_nonneg in Wn.
  apply load_entries_bound in EL; [|rewrite B2, B1; exact W|lia]. cbn [v_entries] in EL.
  destruct EL as (_ & EL & _). change (zlen (@nil entry)) with 0 in EL. rewrite <- N. lia.
Qed.
Print Assumptions C18_entry_count.
Example C18_example :
  (* a truncated file: the length peek rewinds the stream, and the three bytes
     are read again and again until the declared length is used up *)
  exists w v', var_load ns0 gv0 ps0 model_index so0 (Var some_header [] None)
     (header_bytes some_header ++ [40; 0] ++ [13; 0; 1]) = (w, Ok v') /\ length (v_entries v') = 7%nat.
Proof. do 2 eexists. split; vm_compute; reflexivity. Qed.

(** C21: flashless entries cannot be constructed. *)
Theorem C21_flashless_refuted : forall ns gv ps c name ver arch dat,
  entry_new ns gv ps c false name ver arch dat = ([], Err AttributeError).
Proof. reflexivity. Qed.
Print Assumptions C21_flashless_refuted.
Example C21_example : exists e, entry_new ns0 gv0 ps0 KReal true (s2l "A") None None [] = ([], Ok e) /\ meta_length e = 13.
Proof. eexists. split; vm_compute; reflexivity. Qed.

(** C22: archiving. *)
Definition flash_entry (e : entry) : Prop := exists v a, e_meta e = le16 13 /\ e_version e = [v] /\ e_archived e = [a].
Theorem C22_archive : forall e, flash_entry e ->
  archive e = ([], Ok (with_archived e [128])) /\ archived (with_archived e [128]) = true.
Proof.
  intros e (v & a & M & V & A). unfold archive, flash_bytes, set_archived. rewrite (meta_len_13 e M), V, A. split; reflexivity.
Qed.
Print Assumptions C22_archive.
Theorem C22_unarchive : forall e, flash_entry e ->
  unarchive e = ([], Ok (with_archived e [0])) /\ archived (with_archived e [0]) = false.
Proof.
  intros e (v & a & M & V & A). unfold unarchive, flash_bytes, set_archived. rewrite (meta_len_13 e M), V, A. split; reflexivity.
Qed.
Print Assumptions C22_unarchive.
(** [with_archived] changes the archive byte only. *)
Theorem C22_only_archive_byte : forall e x,
  e_archived (with_archived e x) = x /\ e_cls (with_archived e x) = e_cls e /\ e_meta (with_archived e x) = e_meta e /\
  e_type (with_archived e x) = e_type e /\ e_name (with_archived e x) = e_name e /\
  e_version (with_archived e x) = e_version e /\ e_data (with_archived e x) = e_data e.
Proof. repeat split. Qed.
Print Assumptions C22_only_archive_byte.
(** Both raise exactly when the entry has no flash bytes; for any meta length,
    that is meta length 11 or below 10 (10 slices off one of the two bytes). *)
Theorem C22_raises_iff : forall e v a, e_version e = [v] -> e_archived e = [a] ->
  (snd (archive e) = Err TypeError <-> (meta_length e = 11 \/ meta_length e < 10)) /\
  (snd (unarchive e) = Err TypeError <-> (meta_length e = 11 \/ meta_length e < 10)).
Proof.
  intros e v a V A. unfold archive, unarchive, flash_bytes. rewrite V, A. change ([v] ++ [a]) with [v; a].
  assert (S : (py_slice [v; a] None (Some (meta_length e - 11)) = [] <-> (meta_length e = 11 \/ meta_length e < 10))).
  { unfold py_slice, slice_start, slice_stop, norm_idx. change (zlen [v; a]) with 2. rewrite Z.sub_0_r. cbn [skipn Z.to_nat].
    destruct (meta_length e - 11 <? 0) eqn:E.
    - destruct (Z.eq_dec (meta_length e) 10) as [Q|Q].
      + rewrite Q. cbn. split; [discriminate|lia].
      + replace (Z.max (meta_length e - 11 + 2) 0) with 0 by lia. cbn. split; auto. lia.
    - destruct (Z.eq_dec (meta_length e) 11) as [Q|Q].
      + rewrite Q. cbn. tauto.
      + destruct (Z.to_nat (Z.min (meta_length e - 11) 2)) as [|n] eqn:N; [lia|]. cbn. split; [discriminate|lia]. }
  assert (B : forall x, snd (set_archived e x) <> Err TypeError).
  { intros x. unfold set_archived, owarn_if. destruct x; cbn; discriminate. }
  split; destruct (py_slice _ _ _) eqn:P; (split; intros H; [|try reflexivity]);
    try (apply S; reflexivity); try (now apply B in H); try (apply S in H; discriminate H).
Qed.
Print Assumptions C22_raises_iff.
Example C22_example : flash_entry hello /\ snd (archive flashless) = Err TypeError /\
  snd (unarchive hello) = Ok (with_archived hello [0]).
Proof. split; [do 2 eexists; repeat split|]. split; vm_compute; reflexivity. Qed.

(** C23: the length word of sized entries. *)
Lemma set_length_ok e n w e' : length_view (e_cls e) = View (Some 0) (Some 2) -> 2 <= zlen (b_data (e_data e)) ->
  set_length_field e n = (w, Ok e') ->
  0 <= n < 65536 /\ w = [] /\ e' = with_data e (Buf true (le16 n ++ skipn 2 (b_data (e_data e)))) /\ b_mut (e_data e) = true.
Proof.
  intros V L H. unfold set_length_field in H. rewrite V in H. apply obind_ok in H as (w1 & b & w2 & E & H & ->).
  unfold oret in H. injection H as <- <-. unfold view_set in E. change (option_map Z.to_nat (view_length None (View (Some 0) (Some 2)))) with (Some 2%nat) in E.
  apply obind_ok in E as (w3 & x & w4 & E & H & ->). unfold section_set_raw in E. apply obind_ok in E as (w5 & y & w6 & E & F & ->).
  unfold integer_set, olift, to_bytes_le in E. destruct (fits 2 n) eqn:Ft; [|discriminate E]. injection E as <- <-.
  apply fits_spec in Ft. change (256 ^ Z.of_nat 2) with 65536 in Ft.
  change [n mod 256; (n / 256) mod 256] with (le_bytes 2 n) in F. unfold fit_section in F.
  change (Nat.ltb 2 (length (le_bytes 2 n))) with false in F. unfold oret, owarn_if in F. cbn [obind app] in F.
  rewrite ljust_id in F by (rewrite le_bytes_length; lia). injection F as <- <-.
  destruct (b_mut (e_data e)); [|discriminate H]. unfold oret in H. injection H as <- <-.
  split; auto. split; auto. split; auto. f_equal. f_equal. cbn [v_start v_stop].
  rewrite py_slice_set_nn by lia. change (Z.to_nat 0) with 0%nat. change (Z.to_nat 2) with 2%nat. cbn [firstn].
  rewrite le16_le_bytes by lia. reflexivity.
Qed.
Lemma set_version_data e n w e' : set_version e n = (w, Ok e') -> e_data e' = e_data e /\ e_cls e' = e_cls e.
Proof.
  intros H. unfold set_version in H. apply obind_ok in H as (? & ? & ? & _ & H & _). apply obind_ok in H as (? & ? & ? & _ & H & _).
  unfold oret in H. injection H as _ <-. auto.
Qed.
Lemma sized_views c : issubclass c KSized = true -> c <> KImage -> c <> KGraphedEquation ->
  data_view c = (View (Some 2) None, DSized) /\ length_view c = View (Some 0) (Some 2).
Proof. destruct c; intros H N1 N2; try discriminate H; try contradiction; split; reflexivity. Qed.
Lemma set_data_sized gv e v w e' : issubclass (e_cls e) KSized = true -> e_cls e <> KImage -> e_cls e <> KGraphedEquation ->
  2 <= zlen (b_data (e_data e)) -> set_data gv e v = (w, Ok e') ->
  b_data (e_data e') = le16 (zlen v) ++ v /\ zlen v < 65536 /\ e_cls e' = e_cls e.
Proof.
  intros S N1 N2 L H. destruct (sized_views _ S N1 N2) as [DV LV]. unfold set_data in H. rewrite DV in H.
  apply obind_ok in H as (? & e1 & ? & E1 & H & _). apply set_length_ok in E1 as (R & _ & -> & Mu); auto.
  apply obind_ok in H as (? & e2 & ? & E2 & H & _). apply obind_ok in E2 as (? & ver & ? & _ & E2 & _).
  apply set_version_data in E2 as [D2 C2]. cbn in D2, C2.
  apply obind_ok in H as (? & b & ? & E3 & H & _). unfold oret in H. injection H as _ <-. cbn.
  unfold view_set in E3. change (option_map Z.to_nat (view_length None (View (Some 2) None))) with (@None nat) in E3.
  unfold section_set_raw, fit_section in E3. rewrite D2 in E3. cbn [oret obind b_mut b_data app] in E3. injection E3 as _ <-.
  cbn [b_data v_start v_stop]. split; [|split; [lia|auto]].
  rewrite py_slice_set_from; [reflexivity|lia|]. rewrite !zlen_cons. match goal with |- context [zlen ?l] => pose proof (zlen_nonneg l) end. lia.
Qed.
(** A run of data assignments, stopping at the first that raises. *)
Fixpoint assign_all gv (e : entry) (vs : list bytes) : out entry :=
  match vs with [] => oret e | v :: r => do e := set_data gv e v in assign_all gv e r end.
(** The two leading bytes are the length of what follows. *)
Definition in_sync (d : bytes) : Prop := exists r, d = le16 (zlen r) ++ r /\ zlen r < 65536.
Theorem C23_length_in_sync : forall gv e vs w e',
  issubclass (e_cls e) KSized = true -> e_cls e <> KImage -> e_cls e <> KGraphedEquation ->
  in_sync (b_data (e_data e)) -> assign_all gv e vs = (w, Ok e') ->
  in_sync (b_data (e_data e')) /\
  (vs <> [] -> b_data (e_data e') = le16 (zlen (last vs [])) ++ last vs []).
Proof.
  intros gv e vs. revert e. induction vs as [|v vs IH]; intros e w e' S N1 N2 Sy H.
  - unfold assign_all, oret in H. injection H as _ <-. split; auto. congruence.
  - cbn [assign_all] in H. apply obind_ok in H as (? & e1 & ? & E1 & H & _).
    destruct Sy as (r & Er & Lr).
    apply set_data_sized in E1 as (D1 & L1 & C1); auto.
    2:{ rewrite Er, zlen_app. change (zlen (le16 (zlen r))) with 2. pose proof (zlen_nonneg r). lia. }
    assert (Sy1 : in_sync (b_data (e_data e1))) by (exists v; auto).
    rewrite <- C1 in S, N1, N2. destruct (IH e1 _ e' S N1 N2 Sy1 H) as [A B]. split; auto. intros _.
    destruct vs as [|v2 vs].
    + unfold assign_all, oret in H. injection H as _ <-. exact D1.
    + change (last (v :: v2 :: vs) []) with (last (v2 :: vs) (@nil Z)). apply B. discriminate.
Qed.
Print Assumptions C23_length_in_sync.
(** For a colour image the word is one short after any assignment. *)
Theorem C23_image_refuted : exists e v w e', e_cls e = KImage /\ in_sync (b_data (e_data e)) /\
  set_data gv0 e v = (w, Ok e') /\ ~ in_sync (b_data (e_data e')).
Proof.
  exists (Entry KImage [13; 0] [26] (zeros 8) [0] [0] (Buf true [3; 0; 129; 7; 7])), [1; 2]. do 2 eexists.
  split; [reflexivity|]. split; [exists [129; 7; 7]; split; reflexivity|].
  split; [vm_compute; reflexivity|]. intros (r & E & _). injection E as E1 E2 <-. vm_compute in E1. discriminate E1.
Qed.
Print Assumptions C23_image_refuted.
(** For an equation of a graph database, an assignment to [data] overwrites
    half of the length word. *)
Theorem C23_graphed_equation_refuted : exists e v w e', e_cls e = KGraphedEquation /\
  set_data gv0 e v = (w, Ok e') /\ length_field e' <> zlen (data e').
Proof.
  exists (Entry KGraphedEquation [13; 0] [3] (zeros 8) [0] [0] (Buf true [35; 1; 0; 49])), [50; 51]. do 2 eexists.
  split; [reflexivity|]. split; [vm_compute; reflexivity|]. vm_compute. discriminate.
Qed.
Print Assumptions C23_graphed_equation_refuted.
Example C23_example : in_sync (b_data (e_data hello)) /\ issubclass (e_cls hello) KSized = true /\
  rmap (fun e => b_data (e_data e)) (snd (assign_all gv0 hello [[1; 2; 3]; []; [9; 8]])) = Ok [2; 0; 9; 8].
Proof. split; [exists [222; 42; 72; 73; 42]; split; reflexivity|]. split; vm_compute; reflexivity. Qed.

(** C24: assigning [calc_data] makes the entry uneditable: every later view
    assignment that converts raises TypeError. *)
Theorem C24_calc_data_refuted : forall e x w e', set_calc_data e x = (w, Ok e') ->
  forall target vw v, snd (view_set target vw (oret v) (e_data e')) = Err TypeError.
Proof.
  intros e x w e' H target vw v. unfold set_calc_data, section_set_bytes in H.
  apply obind_ok in H as (? & b & ? & E & H & _). apply obind_ok in E as (? & y & ? & _ & E & _).
  unfold oret in *. injection E as _ <-. injection H as _ <-. cbn [with_data e_data].
  unfold view_set, section_set_raw. rewrite obind_ret_l. cbn [b_mut].
  unfold fit_section. destruct (option_map Z.to_nat (view_length target vw)); reflexivity.
Qed.
Print Assumptions C24_calc_data_refuted.
Theorem C24_data_uneditable : forall gv e x w e' d, set_calc_data e x = (w, Ok e') ->
  e_cls e = KEntry -> snd (gv e' (Some d)) = Ok 0 -> snd (set_data gv e' d) = Err TypeError.
Proof.
  intros gv e x w e' d H C G. pose proof (C24_calc_data_refuted e x w e' H) as T.
  assert (C' : e_cls e' = KEntry).
  { unfold set_calc_data in H. apply obind_ok in H as (? & b & ? & _ & H & _). unfold oret in H. injection H as _ <-. exact C. }
  unfold set_data. rewrite C'. cbn [data_view]. rewrite obind_oret.
  destruct (gv e' (Some d)) as [wg rg]. cbn [snd] in G. subst rg. cbn [obind].
  destruct (set_version e' 0) as [wv [e2|x2]] eqn:V; cbn [obind].
  - apply set_version_data in V as [V _]. specialize (T None (View None None) d). rewrite <- V in T.
    destruct (view_set None (View None None) (oret d) (e_data e2)) as [wb [b|xb]]; cbn [snd obind] in *; [discriminate T|]. now injection T as ->.
  - exfalso. unfold set_version in V. destruct (meta_length e' =? 11); vm_compute in V; discriminate V.
Qed.
Print Assumptions C24_data_uneditable.
Example C24_example : exists e', set_calc_data hello [2; 0; 1; 2] = ([], Ok e') /\
  snd (set_data gv0 hello [1]) <> Err TypeError /\ snd (set_data gv0 e' [1]) = Err TypeError.
Proof. eexists. split; [vm_compute; reflexivity|]. split; vm_compute; [discriminate|reflexivity]. Qed.
