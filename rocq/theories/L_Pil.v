(** Lemmas about the PIL plugins. *)
From Verif Require Import L_Base M_Data M_Flags M_Models M_Class M_Var M_List M_Pic M_File M_Pil S_Data L_Data S_Var L_Models L_Var L_VarFile L_List S_Pic L_Pic P_Var P_Pic.

(** ** [load_array], with the entry it leaves *)
Lemma mono_load_spec e arr : e_cls e = KMonoPicture -> writable 2 e -> grid 63 96 arr ->
  exists d, mono_load e arr = ([], Ok (with_data (with_version e [0]) (Buf true (le16 756 ++ d)))) /\
    zlen d = 756 /\ mono_array d = Ok (map (map (fun p => if p =? 0 then 0 else 255)) arr).
Proof.
  intros C W G. destruct (writable_inv 2 e W) as (v0 & D & M & V & B & ED & L2).
  destruct (mono_bytes_ok 63 12 arr G) as (rows & E & LR & FR & WR & DE). exists (concat rows). unfold mono_load. rewrite E, obind_lift.
  assert (LC : zlen (concat rows) = 756). { unfold zlen. rewrite (concat_length_const 12) by auto. rewrite LR. reflexivity. }
  assert (B0 : is_byte 0) by (unfold is_byte; lia). split; [|split; [exact LC|]].
  - rewrite (set_data_sized_13 pic_version e (concat rows) D 0 [] v0); try (rewrite C; reflexivity); auto; try lia.
    + now rewrite LC.
    + intros e' HC. unfold pic_version. rewrite HC, C. reflexivity.
  - rewrite mono_array_rows, DE by auto. reflexivity.
Qed.
Lemma pic_load_spec e arr : e_cls e = KTIPicture -> writable 2 e -> grid 165 266 arr ->
  exists w d arr', pic_load e arr = (w, Ok (with_data (with_version e [10]) (Buf true (le16 21945 ++ d)))) /\
    zlen d = 21945 /\ pic_array d = Ok arr' /\ Forall2 (Forall2 nearest_to) arr arr' /\
    (Forall (Forall (fun c => In c palette)) arr -> arr' = arr).
Proof.
  intros C W G. destruct (writable_inv 2 e W) as (v0 & D & M & V & B & ED & L2).
  destruct (C55_load_array e arr C W G) as (w & e' & arr' & E & LF & LC & A & F & P).
  assert (X : exists wb b, pic_bytes arr = (wb, Ok b)).
  { unfold pic_load in E. destruct (pic_bytes arr) as [wb [b|x]]; [eauto|discriminate E]. }
  destruct X as (wb & b & PB).
  assert (BL : zlen b = 21945 /\ pic_load e arr = (wb, Ok (with_data (with_version e [10]) (Buf true (le16 (zlen b) ++ b))))).
  { unfold pic_load in E |- *. rewrite PB in E |- *. cbn [obind] in E |- *.
    assert (L : zlen b < 65536).
    { assert (Y : pic_bytes arr = pic_bytes arr) by reflexivity. rewrite pic_bytes_eq in Y at 1. rewrite PB in Y. injection Y as _ Y.
      destruct G as [LA FA]. rewrite <- Y. unfold zlen. rewrite (concat_length_const 133).
      - rewrite map_length, LA, Nat2Z.inj_mul. lia.
      - apply Forall_forall. intros y Hy. apply in_map_iff in Hy as (row & <- & Hr). rewrite map_length. rewrite Forall_forall in FA.
        destruct (pairs2_even 133 row (FA row Hr)) as [_ ->]. reflexivity. }
    assert (BT : is_byte 10) by (unfold is_byte; lia).
    rewrite (set_data_sized_13 pic_version e b D 10 [] v0) in E |- *; try (rewrite C; reflexivity); auto; try lia.
    2:{ intros e2 HC. unfold pic_version. rewrite HC, C. reflexivity. }
    2:{ intros e2 HC. unfold pic_version. rewrite HC, C. reflexivity. }
    cbn [obind] in E |- *. rewrite app_nil_r. split; [|reflexivity].
    injection E as _ E. subst e'. change (zlen (le16 (zlen b) ++ b) = 21947) in LC. rewrite zlen_app in LC. change (zlen (le16 (zlen b))) with 2 in LC. lia. }
  destruct BL as [BL PL]. rewrite PL in E.
  assert (EQ : with_data (with_version e [10]) (Buf true (le16 (zlen b) ++ b)) = e') by congruence. rewrite BL in PL. exists wb, b, arr'. split; [exact PL|]. split; [exact BL|].
  rewrite <- EQ in A. rewrite (data_after (with_version e [10]) (le16 (zlen b))) in A by (unfold with_version; cbn [e_cls]; rewrite C; reflexivity).
  split; [exact A|]. split; [exact F|]. intros H. now apply P.
Qed.

(** ** Files with one entry *)
Section One.
  Variable ns : cls -> str -> out bytes.
  Variable ps : bytes -> option bool.
  Variable order : model -> Z.
  Variable so : list model -> list model.

  Definition h0 : header := match snd (header_default None) with Ok h => h | Err _ => Header [] [] [] [] end.
  Lemma h0_default : header_default None = ([], Ok h0).
  Proof. vm_compute. reflexivity. Qed.
  Lemma h0_wf : header_wf h0.
  Proof. split; [reflexivity|]. split; [reflexivity|]. split; [eexists; split; [vm_compute; reflexivity|unfold is_byte; lia]|reflexivity]. Qed.

  Lemma var_load_one h e w e' e0 : header_wf h -> storable e -> zlen (image_of e) < 65536 ->
    entry_default ns pic_version ps = ([], Ok e0) ->
    entry_load ps KEntry (image_of e) = (w, Ok e') -> same_raw e' e ->
    var_load ns pic_version ps order so (Var h0 [] None) (file_image (header_bytes h) [image_of e]) = (w, Ok (Var h [e'] None)).
  Proof.
    intros HW St L D EL SR. pose proof (zlen_nonneg (image_of e)) as P. unfold var_load, file_image. cbn [concat]. rewrite app_nil_r.
    set (body := image_of e) in *. set (c := fold_right Z.add 0 body mod 65536).
    assert (LH : length (header_bytes h) = 53%nat).
    { destruct HW as (A & B & (p & C & _) & E). unfold header_bytes. rewrite !app_length, A, B, C, E. reflexivity. }
    destruct (st_read_app (header_bytes h) (le16 (zlen body) ++ body ++ le16 c) 53 0 (header_bytes h ++ le16 (zlen body) ++ body ++ le16 c) LH eq_refl)
      as (s1 & E1 & R1 & B1). rewrite E1.
    destruct s1 as [bf p1]. cbn [st_buf] in B1. subst bf. unfold st_rest in R1. cbn [st_buf st_pos] in R1.
    destruct (st_read_app (le16 (zlen body)) (body ++ le16 c) 2 p1 _ eq_refl R1) as (s2 & E2 & R2 & B2). rewrite E2.
    rewrite le_int_le16 by lia.
    assert (HL : header_load (header_bytes h) = h) by (rewrite <- (app_nil_r (header_bytes h)); now apply header_restore).
    rewrite HL.
    assert (PB : 0 < zlen body).
    { unfold body. rewrite <- (entry_len_image e St). destruct (image_head e St) as (m & r & Hm & _ & ->). pose proof (zlen_nonneg (b_data (e_data e))). lia. }
    destruct (Z.to_nat (zlen body)) as [|fuel] eqn:F; [lia|].
    assert (X : exists s3, st_rest s3 = le16 c /\ load_entries ns pic_version ps (S fuel) (zlen body) s2 (Var h [] None) = (w, Ok (0, s3, Var h [e'] None))).
    { destruct s2 as [bf p2]. unfold st_rest in R2. cbn [st_buf st_pos] in R2.
      destruct (st_read_app body (le16 c) (length body) p2 bf eq_refl R2) as (s3 & E3 & R3 & _). exists s3. split; [exact R3|].
      cbn [load_entries]. replace (zlen body <=? 0) with false by lia. unfold add_entry. rewrite D. cbn [obind v_entries oret].
      rewrite (next_len_image e (Stream bf p2) (le16 c) St) by exact R2. fold body. cbn [obind]. rewrite to_nat_zlen, E3, EL, Z.eqb_refl.
      cbn [obind negb owarn_if v_header v_entries v_model app removelast]. rewrite Z.sub_diag.
      assert (LE : forall v, load_entries ns pic_version ps fuel 0 s3 v = oret (0, s3, v)) by (destruct fuel; reflexivity).
      rewrite LE. cbn [obind oret]. rewrite ?app_nil_r. reflexivity. }
    destruct X as (s3 & R3 & E3). cbn [v_model]. rewrite E3. cbn [obind]. change (0 <? 0) with false.
    destruct s3 as [bf p3]. unfold st_rest in R3. cbn [st_buf st_pos] in R3.
    destruct (st_read_app (le16 c) [] 2 p3 bf eq_refl) as (s4 & E4 & _); [now rewrite app_nil_r|]. rewrite E4.
    cbn [owarn_if obind v_model model_check oret].
    rewrite checksum_spec by (cbn [v_entries]; constructor; [now apply (same_raw_storable e' e)|constructor]). cbn [v_entries map concat].
    rewrite (same_raw_image _ _ SR), app_nil_r. fold body. change (zsum body mod 65536) with c. cbn [olift obind]. rewrite leqb_refl. cbn [negb obind oret]. now rewrite ?app_nil_r.
  Qed.
End One.

(** ** Names and fresh entries *)
Lemma name_fits (ns : cls -> str -> out bytes) c s nm : ns c s = oret nm -> (length nm <= 8)%nat -> section_set_raw (Some 8%nat) (ns c s) = oret (ljust 8 nm).
Proof.
  intros E L. rewrite E. unfold section_set_raw. rewrite obind_oret.
  unfold fit_section. replace (Nat.ltb 8 (length nm)) with false by (symmetry; apply Nat.ltb_ge; lia). reflexivity.
Qed.
Lemma fresh ns ps k nm : In k [KMonoPicture; KTIPicture; KImage] -> section_set_raw (Some 8%nat) (ns k (pic_name k)) = oret nm ->
  exists v D, pic_fresh ns ps k = ([], Ok (Entry k [13; 0] [if cls_eqb k KImage then 26 else 7] nm [v] [128] (Buf true D))) /\ is_byte v /\ (3 <= length D)%nat.
Proof.
  intros I N. unfold pic_fresh, entry_new. rewrite N.
  assert (B : is_byte 0 /\ is_byte 10) by (unfold is_byte; lia). destruct B as [B0 B10].
  destruct I as [<- | [<- | [<- | []]]].
  - exists 0, ([244; 2] ++ zeros 756). split; [vm_compute; reflexivity|]. split; [exact B0|]. apply Nat.leb_le. vm_compute. reflexivity.
  - exists 10, ([185; 85] ++ zeros (Z.to_nat 21945)). split; [vm_compute; reflexivity|]. split; [exact B10|]. apply Nat.leb_le. vm_compute. reflexivity.
  - exists 0, ([229; 86; 129] ++ zeros (Z.to_nat 22244)). split; [vm_compute; reflexivity|]. split; [exact B0|]. apply Nat.leb_le. vm_compute. reflexivity.
Qed.

(** ** Saving *)
Lemma reshape_grid {A} h w (arr : list (list A)) : (0 < w)%nat -> grid h w arr -> reshape h w (concat arr) = Ok arr.
Proof.
  intros W [L F]. unfold reshape. rewrite (concat_length_const w) by exact F. rewrite L, Nat.eqb_refl. now rewrite chunks_concat.
Qed.
Lemma reshape_other {A} h w (px : list A) : length px <> (h * w)%nat -> reshape h w px = Err ValueError.
Proof. intros H. unfold reshape. apply Nat.eqb_neq in H. now rewrite H. Qed.

Definition saved (k : cls) (nm : bytes) (v : Z) (P : bytes) : entry :=
  Entry k [13; 0] [if cls_eqb k KImage then 26 else 7] nm [v] [128] (Buf true P).
Lemma saved_storable k nm v P : length nm = 8%nat -> is_byte v -> zlen P < 65536 -> storable (saved k nm v P).
Proof.
  intros N B L. constructor; cbn [saved e_meta e_type e_name e_version e_archived e_data b_data b_mut]; auto.
  - eexists. split; [reflexivity|]. unfold is_byte. destruct (cls_eqb k KImage); lia.
  - eauto.
  - exists 128. split; [reflexivity|]. unfold is_byte. lia.
  - discriminate.
Qed.
Lemma saved_len k nm v P : length nm = 8%nat -> is_byte v -> zlen P < 65536 -> zlen (image_of (saved k nm v P)) = 17 + zlen P.
Proof.
  intros N B L. rewrite <- entry_len_image by (now apply saved_storable). reflexivity.
Qed.
Section Save.
  Variable ns : cls -> str -> out bytes.
  Variable ps : bytes -> option bool.
  Variable order : model -> Z.
  Variable so : list model -> list model.

  (** Whatever holds of the result of [load_array] on the fresh entry holds of the
      entry in the file. *)
  Lemma encode_one {A} k nm load (arr : list (list A)) (Q : list warning -> Z -> bytes -> Prop) :
    In k [KMonoPicture; KTIPicture; KImage] -> section_set_raw (Some 8%nat) (ns k (pic_name k)) = oret nm -> length nm = 8%nat ->
    grid (Z.to_nat (pic_height k)) (Z.to_nat (pic_width k)) arr ->
    (forall v0 D, is_byte v0 -> (3 <= length D)%nat -> exists w v P, load (saved k nm v0 D) arr = (w, Ok (saved k nm v P)) /\
      is_byte v /\ 0 < zlen P < 60000 /\ Q w v P) ->
    exists w v P, encode ns ps k load (concat arr) = (w, Ok (file_image (header_bytes h0) [image_of (saved k nm v P)])) /\ Q w v P.
  Proof.
    intros I N LN G LD. unfold encode. destruct (fresh ns ps k nm I N) as (v0 & D & -> & B0 & LD3).
    destruct (LD v0 D B0 LD3) as (w & v & P & EL & BV & LP & HQ). exists w, v, P. split; [|exact HQ]. cbn [obind].
    rewrite reshape_grid; [|destruct I as [<- | [<- | [<- | []]]]; cbn; lia|exact G]. rewrite obind_lift. fold (saved k nm v0 D). rewrite EL.
    cbn [obind]. unfold export, var_new. rewrite h0_default. cbn [obind oret]. unfold add_entry. unfold is_empty.
    replace (calc_data_length (saved k nm v P) =? 0) with false by (unfold calc_data_length, calc_data; cbn [saved e_data b_data]; lia).
    cbn [obind oret v_entries v_header v_model app].
    rewrite var_bytes_image; cbn [v_entries v_header map].
    - cbn [olift obind oret]. rewrite ?app_nil_r. reflexivity.
    - constructor; [apply saved_storable; auto; lia|constructor].
    - rewrite entry_length_spec by (constructor; [apply saved_storable; auto; lia|constructor]). cbn [v_entries map concat]. rewrite app_nil_r, saved_len by (auto; lia). lia.
  Qed.
End Save.

(** ** Opening *)
Lemma load_saved ps k nm v n d : In (k, v, n) [(KMonoPicture, 0, 756); (KTIPicture, 10, 21945); (KImage, 0, 22244)] -> length nm = 8%nat -> zlen d < 65000 ->
  [v; 128] <> le16 (2 + zlen d) ->
  entry_load ps KEntry (image_of (saved k nm v (le16 n ++ d))) = ((if cls_eqb k KImage then [WPicLength] else []), Ok (saved k nm v (le16 n ++ d))).
Proof.
  intros I LN LD NA. set (P := le16 n ++ d). assert (LP : zlen P = 2 + zlen d) by (unfold P; rewrite zlen_app; reflexivity).
  assert (IM : image_of (saved k nm v P) = entry_image 13 (if cls_eqb k KImage then 26 else 7) nm [v; 128] P ++ []).
  { rewrite app_nil_r. reflexivity. }
  assert (BT : is_byte (if cls_eqb k KImage then 26 else 7)) by (unfold is_byte; destruct (cls_eqb k KImage); lia).
  rewrite IM, load_image_13; [|exact BT|exact LN|rewrite LP; lia|rewrite LP; exact NA]. clear IM.
  assert (LF : forall c t, length_view c = View (Some 0) (Some 2) -> 0 <= n < 65536 -> length_field (Entry c [13; 0] [t] nm [v] [128] (Buf true P)) = n).
  { intros c t Hc Hn. exact (length_after (Entry c [13; 0] [t] nm [v] [128] (Buf true [])) n d Hc Hn). }
  set (t := if cls_eqb k KImage then 26 else 7) in *.
  assert (CK : coerce ps (Entry KEntry [13; 0] [t] nm [v] [128] (Buf true P)) = ((if cls_eqb k KImage then [WPicLength] else []), Ok (saved k nm v P))).
  { unfold coerce. cbn [e_cls]. unfold coerce_base. rewrite (type_id_byte _ t) by (auto; reflexivity). rewrite obind_lift. unfold t.
    destruct I as [I|[I|[I|[]]]]; injection I as <- <- <-.
    - change (get_type (if cls_eqb KMonoPicture KImage then 26 else 7)) with (Some KTIPicture).
      unfold with_cls. cbn [e_meta e_type e_name e_version e_archived e_data]. unfold coerce_own. cbn [e_cls].
      change (issubclass KTIPicture KProgram) with false. change (cls_eqb KTIPicture KGraphedEquation) with false.
      change (issubclass KTIPicture KList) with false. change (issubclass KTIPicture KComplexEntry) with false. change (issubclass KTIPicture KPicture) with true. cbv iota.
      unfold coerce_picture. rewrite LF by (reflexivity || lia). reflexivity.
    - change (get_type (if cls_eqb KTIPicture KImage then 26 else 7)) with (Some KTIPicture).
      unfold with_cls. cbn [e_meta e_type e_name e_version e_archived e_data]. unfold coerce_own. cbn [e_cls].
      change (issubclass KTIPicture KProgram) with false. change (cls_eqb KTIPicture KGraphedEquation) with false.
      change (issubclass KTIPicture KList) with false. change (issubclass KTIPicture KComplexEntry) with false. change (issubclass KTIPicture KPicture) with true. cbv iota.
      unfold coerce_picture. rewrite LF by (reflexivity || lia). reflexivity.
    - change (get_type (if cls_eqb KImage KImage then 26 else 7)) with (Some KImage).
      unfold with_cls. cbn [e_meta e_type e_name e_version e_archived e_data]. unfold coerce_own. cbn [e_cls].
      change (issubclass KImage KProgram) with false. change (cls_eqb KImage KGraphedEquation) with false.
      change (issubclass KImage KList) with false. change (issubclass KImage KComplexEntry) with false. change (issubclass KImage KPicture) with true. cbv iota.
      unfold coerce_picture. rewrite LF by (reflexivity || lia). reflexivity. }
  assert (TC : type_check KEntry t = oret tt) by reflexivity. rewrite TC, obind_oret. change (flash_warn 128) with (@nil warning). cbn [obind].
  unfold finish. rewrite CK. cbn [obind]. 
  destruct I as [I|[I|[I|[]]]]; injection I as <- <- <-; reflexivity.
Qed.
Section Open.
  Variable ns : cls -> str -> out bytes.
  Variable ps : bytes -> option bool.
  Variable order : model -> Z.
  Variable so : list model -> list model.
  Lemma read_saved k nm v n d un : In (k, v, n) [(KMonoPicture, 0, 756); (KTIPicture, 10, 21945); (KImage, 0, 22244)] -> length nm = 8%nat -> zlen d < 30000 ->
    ns KEntry (s2l "UNNAMED") = oret un -> (length un <= 8)%nat ->
    read_var ns ps order so (file_image (header_bytes h0) [image_of (saved k nm v (le16 n ++ d))]) =
    ((if cls_eqb k KImage then [WPicLength] else []), Ok (Var h0 [saved k nm v (le16 n ++ d)] None)).
  Proof.
    intros I LN LD U LU. unfold read_var, var_new. rewrite h0_default. cbn [obind oret].
    assert (BV : is_byte v) by (destruct I as [I|[I|[I|[]]]]; injection I as <- <- <-; unfold is_byte; lia).
    assert (LP : zlen (le16 n ++ d) = 2 + zlen d) by (rewrite zlen_app; reflexivity).
    assert (D : exists e0, entry_default ns pic_version ps = ([], Ok e0)).
    { unfold entry_default, entry_new. rewrite (name_fits ns KEntry (s2l "UNNAMED") un U LU). eexists. vm_compute. reflexivity. }
    destruct D as (e0 & D). pose proof (zlen_nonneg d) as P0.
    rewrite (var_load_one ns ps order so h0 (saved k nm v (le16 n ++ d)) (if cls_eqb k KImage then [WPicLength] else []) (saved k nm v (le16 n ++ d)) e0).
    - reflexivity.
    - exact h0_wf.
    - apply saved_storable; auto. lia.
    - rewrite saved_len by (auto; lia). lia.
    - exact D.
    - apply load_saved; auto; [lia|]. intros H. apply (f_equal (fun l => nth 1 l 0)) in H. cbn [nth le16] in H. lia.
    - repeat split.
  Qed.
End Open.
