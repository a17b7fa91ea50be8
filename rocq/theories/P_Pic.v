(** Property theorems C54-C58: pictures and images. *)
From Verif Require Import L_Base M_Data M_Flags M_Models M_Class M_Var M_List M_Pic S_Data L_Data S_Var L_Models L_Var L_List S_Pic L_Pic P_Var.

Lemma data_after e p v : data_view (e_cls e) = (View (Some (zlen p)) None, DSized) ->
  data (with_data e (Buf true (p ++ v))) = v.
Proof.
  intros H. unfold data. unfold with_data at 1. cbn [e_cls]. rewrite H. cbn [fst]. unfold view_get, with_data. cbn [e_data b_data v_start v_stop].
  rewrite py_slice_from by apply zlen_nonneg. rewrite to_nat_zlen. now apply skipn_app_exact.
Qed.
Lemma length_after e n v : length_view (e_cls e) = View (Some 0) (Some 2) -> 0 <= n < 65536 ->
  length_field (with_data e (Buf true (le16 n ++ v))) = n.
Proof.
  intros H N. unfold length_field. unfold with_data at 1. cbn [e_cls]. rewrite H. unfold view_get, with_data. cbn [e_data b_data v_start v_stop].
  rewrite py_slice_nn by (rewrite ?zlen_app; pose proof (zlen_nonneg v); change (zlen (le16 n)) with 2; lia). cbn [Z.sub Z.to_nat skipn].
  change (Z.to_nat (2 - 0)) with 2%nat. change (skipn (Z.to_nat 0) (le16 n ++ v)) with (le16 n ++ v). rewrite firstn_app_exact by reflexivity. now apply le_int_le16.
Qed.
Lemma writable_inv n e : writable n e -> exists v0 D, e_meta e = le16 13 /\ e_version e = [v0] /\ is_byte v0 /\ e_data e = Buf true D /\ (n <= length D)%nat.
Proof.
  intros (M & (v & V & B) & MU & L). destruct (e_data e) as [m D] eqn:E. cbn in MU, L. subst m. exists v, D. auto.
Qed.

(** C54: monochrome pictures. *)
Theorem C54_load_array : forall e arr, e_cls e = KMonoPicture -> writable 2 e -> grid 63 96 arr ->
  exists e', mono_load e arr = ([], Ok e') /\ length_field e' = 756 /\ zlen (calc_data e') = 758 /\
    mono_array (data e') = Ok (map (map (fun p => if p =? 0 then 0 else 255)) arr).
Proof.
  intros e arr C W G. destruct (writable_inv 2 e W) as (v0 & D & M & V & B & ED & L2).
  destruct (mono_bytes_ok 63 12 arr G) as (rows & E & LR & FR & WR & DE). unfold mono_load. rewrite E, obind_lift.
  assert (LC : zlen (concat rows) = 756). { unfold zlen. rewrite (concat_length_const 12) by auto. rewrite LR. reflexivity. }
  assert (B0 : is_byte 0) by (unfold is_byte; lia).
  rewrite (set_data_sized_13 pic_version e (concat rows) D 0 [] v0); try (rewrite C; reflexivity); auto; try lia.
  2:{ intros e' HC. unfold pic_version. rewrite HC, C. reflexivity. }
  set (e1 := with_version e [0]). eexists. split; [reflexivity|].
  assert (C1 : e_cls e1 = KMonoPicture) by exact C.
  split; [rewrite length_after; rewrite ?C1, ?LC; auto; lia|]. split.
  - unfold calc_data, with_data. cbn [e_data b_data]. rewrite zlen_app, LC. reflexivity.
  - rewrite (data_after e1 (le16 (zlen (concat rows)))) by (rewrite C1; reflexivity). rewrite mono_array_rows, DE by auto. reflexivity.
Qed.
Print Assumptions C54_load_array.
(** Pixels 0 and 255 come back exactly. *)
Theorem C54_pixels : forall e arr, e_cls e = KMonoPicture -> writable 2 e -> grid 63 96 arr ->
  Forall (Forall (fun p => p = 0 \/ p = 255)) arr ->
  exists e', mono_load e arr = ([], Ok e') /\ mono_array (data e') = Ok arr.
Proof.
  intros e arr C W G F. destruct (C54_load_array e arr C W G) as (e' & E & _ & _ & A). exists e'. split; [exact E|]. rewrite A. f_equal.
  clear - F. induction F as [|row arr FR F IH]; [reflexivity|]. cbn [map]. rewrite IH. f_equal.
  induction FR as [|p row P FR IHr]; [reflexivity|]. cbn [map]. rewrite IHr. f_equal. destruct P as [-> | ->]; reflexivity.
Qed.
Print Assumptions C54_pixels.
(** Reading all pixels and writing them back restores the bytes. *)
Theorem C54_bytes : forall d, wf_bytes d -> length d = 756%nat ->
  exists arr, mono_array d = Ok arr /\ grid 63 96 arr /\ mono_bytes arr = Ok d.
Proof.
  intros d W L. destruct (rows_exact 12 63 d) as (rows & -> & LR & FR); [lia|rewrite L; reflexivity|].
  exists (map (fun row => concat (map dec1 row)) rows). split; [now apply mono_array_rows|]. split.
  - split; [now rewrite map_length|]. apply Forall_forall. intros y Hy. apply in_map_iff in Hy as (row & <- & Hr). rewrite Forall_forall in FR.
    rewrite (concat_length_const 8). { rewrite map_length, FR by auto. reflexivity. }
    apply Forall_forall. intros x Hx. apply in_map_iff in Hx as (b & <- & _). reflexivity.
  - apply mono_bytes_rows. clear - W. induction rows; [constructor|]. cbn in W. apply Forall_app in W as [A B]. constructor; auto.
Qed.
Print Assumptions C54_bytes.
Lemma nth_firstn1 n : forall l : list Z, nth n l 0 = nth 0 (firstn 1 (skipn n l)) 0.
Proof. induction n as [|n IH]; intros [|x l]; try reflexivity. exact (IH l). Qed.
(** Where each pixel is: bit 7 - c mod 8 of byte 12 r + c / 8; clear means white. *)
Theorem C54_layout : forall d arr r c, wf_bytes d -> length d = 756%nat -> mono_array d = Ok arr -> (r < 63)%nat -> (c < 96)%nat ->
  nth c (nth r arr []) 0 = mono_pixel (nth (12 * r + c / 8) d 0) (c mod 8).
Proof.
  intros d arr r c W L A Hr Hc. destruct (rows_exact 12 63 d) as (rows & -> & LR & FR); [lia|rewrite L; reflexivity|].
  rewrite mono_array_rows in A by auto. injection A as <-.
  set (f := fun row => concat (map dec1 row)). rewrite (nth_indep _ [] (f [])) by (rewrite map_length; lia). rewrite map_nth.
  set (row := nth r rows []). assert (IR : nth_error rows r = Some row) by (apply nth_error_nth'; lia).
  assert (LW : length row = 12%nat). { rewrite Forall_forall in FR. apply FR. eapply nth_error_In; eauto. }
  assert (Q : (c / 8 < 12)%nat) by (apply Nat.div_lt_upper_bound; lia). assert (M : (c mod 8 < 8)%nat) by (apply Nat.mod_upper_bound; lia).
  rewrite (nth_firstn1 (12 * r + c / 8)), (sub_row 12 r (c / 8) 1 rows row FR IR) by lia.
  assert (NB : nth_error row (c / 8) = Some (nth (c / 8) row 0)) by (apply nth_error_nth'; lia).
  rewrite (firstn1_skipn row _ _ NB). cbn [nth]. set (b := nth (c / 8) row 0) in *.
  (* the pixel in the decoded row *)
  assert (P : nth c (f row) 0 = nth (c mod 8) (dec1 b) 0).
  { unfold f. rewrite (Nat.div_mod c 8) at 1 by lia.
    assert (F8 : Forall (fun x => length x = 8%nat) (map dec1 row)) by (apply Forall_forall; intros x Hx; apply in_map_iff in Hx as (y & <- & _); reflexivity).
    rewrite nth_firstn1, (sub_row 8 (c / 8) (c mod 8) 1 (map dec1 row) (dec1 b) F8) by (try lia; now apply map_nth_error). now rewrite <- nth_firstn1. }
  rewrite P. unfold mono_pixel, dec1, bits8. revert M. generalize (c mod 8)%nat. intros m M.
  do 8 (destruct m as [|m]; [cbn [map nth]; match goal with |- context [7 - Z.of_nat ?k] => change (7 - Z.of_nat k) with (Z.of_nat (7 - k)); cbn [Nat.sub Z.of_nat Pos.of_succ_nat Pos.succ] end;
    match goal with |- context [Z.b2z (Z.testbit b ?k)] => destruct (Z.testbit b k); reflexivity end|]). lia.
Qed.
Print Assumptions C54_layout.
(** A row whose width is not a multiple of eight is refused. *)
Theorem C54_ragged : forall e arr, Exists (fun row => (length row mod 8 <> 0)%nat) arr ->
  mono_load e arr = ([], Err ValueError).
Proof.
  intros e arr H. unfold mono_load, mono_bytes.
  assert (E : rmapM (fun row => try gs := groups8 (length row) row in try bs := rmapM l1_set gs in Ok (concat bs)) arr = Err ValueError).
  { induction arr as [|row arr IH]; [inversion H|]. cbn [rmapM]. destruct (Nat.eq_dec (length row mod 8) 0) as [Z0 | NZ].
    - destruct (rows_exact 8 (length row / 8) row) as (gs & EG & _ & FG); [lia| |].
      { rewrite (Nat.div_mod (length row) 8) at 1 by lia. lia. }
      rewrite EG at 1 2. rewrite groups8_concat by auto. cbn [rbind].
      rewrite (rmapM_map _ (fun g => [enc1 g])) by (intros g Hg; rewrite Forall_forall in FG; now destruct (enc1_byte g (FG g Hg))).
      cbn [rbind]. rewrite IH; [reflexivity|]. inversion H; [congruence|auto].
    - rewrite groups8_bad by auto. reflexivity. }
  rewrite E. reflexivity.
Qed.
Print Assumptions C54_ragged.
(** But the size of the array is not checked: a picture of no rows is stored, and
    reading it raises IndexError. *)
Definition mono0 : entry := Entry KMonoPicture [13; 0] [7] ([96; 0] ++ zeros 6) [0] [128] (Buf true ([244; 2] ++ zeros 756)).
Theorem C54_size_refuted : exists e', mono_load mono0 [] = ([], Ok e') /\ mono_array (data e') = Err IndexError.
Proof. eexists. split; [vm_compute; reflexivity|]. vm_compute. reflexivity. Qed.
Print Assumptions C54_size_refuted.
Example C54_example : writable 2 mono0 /\ grid 63 96 (repeat (repeat 0 40 ++ repeat 255 56) 63) /\
  exists e', mono_load mono0 (repeat (repeat 0 40 ++ repeat 255 56) 63) = ([], Ok e') /\
    data e' = concat (repeat [255; 255; 255; 255; 255; 0; 0; 0; 0; 0; 0; 0] 63) /\
    mono_array (data e') = Ok (repeat (repeat 0 40 ++ repeat 255 56) 63).
Proof.
  split; [|split].
  - split; [reflexivity|]. split; [exists 0; split; [reflexivity|unfold is_byte; lia]|]. split; [reflexivity|]. vm_compute. lia.
  - split; [reflexivity|]. apply Forall_forall. intros x Hx. apply repeat_spec in Hx as ->. reflexivity.
  - eexists. split; [vm_compute; reflexivity|]. split; vm_compute; reflexivity.
Qed.

(** C55: palette pictures. *)
Theorem C55_nearest : forall a b, exists w x a' b', palette_set a b = (w, Ok [x]) /\ is_byte x /\ palette_get [x] = Ok [a'; b'] /\
  nearest_to a a' /\ nearest_to b b' /\ (w = [] <-> In a palette /\ In b palette) /\
  (In a palette -> a' = a) /\ (In b palette -> b' = b).
Proof.
  intros a b. exists (wnear a ++ wnear b), (enc2 (a, b)), (near a), (near b). split; [apply palette_set_eq|].
  pose proof (enc2_byte (a, b)) as B. split; [exact B|]. rewrite palette_get_eq, dec_enc2 by exact B. split; [reflexivity|].
  split; [apply near_spec|]. split; [apply near_spec|]. split; [|split; apply near_palette].
  rewrite <- !wnear_spec. split; [apply app_eq_nil|]. intros [-> ->]. reflexivity.
Qed.
Print Assumptions C55_nearest.
(** Of several nearest colours the first in the palette is taken. *)
Lemma min_key_first key best l : exists pre post, best :: l = pre ++ min_key key best l :: post /\ Forall (fun x => key (min_key key best l) < key x) pre.
Proof.
  revert best. induction l as [|y l IH]; intros best; cbn [min_key]; [exists [], []; auto|].
  destruct (key y <? key best) eqn:E.
  - destruct (IH y) as (pre & post & EQ & F). exists (best :: pre), post. rewrite EQ at 1. split; [reflexivity|]. constructor; [|exact F].
    destruct (min_key_spec key y l) as [_ M]. specialize (M y (or_introl eq_refl)). lia.
  - destruct (IH best) as (pre & post & EQ & F). destruct pre as [|p pre].
    + injection EQ as E1 E2. exists [], (y :: l). rewrite <- E1. auto.
    + injection EQ as -> E2. exists (p :: y :: pre), post. rewrite E2 at 1. split; [reflexivity|].
      inversion F as [|? ? F1 F2]; subst. constructor; [exact F1|]. constructor; [lia|exact F2].
Qed.
Lemma Ok_inj {A} (a b : A) : Ok a = Ok b -> a = b.
Proof. congruence. Qed.
Theorem C55_first_nearest : forall c w n, nearest c = (w, Ok n) ->
  exists pre post, palette = pre ++ n :: post /\ Forall (fun x => sqdist c n < sqdist c x) pre.
Proof.
  intros c w n H. rewrite nearest_eq in H. apply (f_equal snd) in H. cbn [snd] in H. apply Ok_inj in H. rewrite <- H. unfold near.
  destruct (min_key_first (dist c) (hd c palette) (tl palette)) as (pre & post & E & F). exists pre, post. split; [exact E|].
  eapply Forall_impl; [|exact F]. intros x. rewrite !dist_sq. auto.
Qed.
Print Assumptions C55_first_nearest.
Lemma palette_set_silent x y c : wnear x = [] -> wnear y = [] -> enc2 (x, y) = c -> palette_set x y = ([], Ok [c]).
Proof. intros W1 W2 E. rewrite palette_set_eq, W1, W2, E. reflexivity. Qed.
(** Reading a byte and writing its colours gives the byte back, with the second
    white (index 11) replaced by the first; without warnings. *)
Theorem C55_bytes : forall b, is_byte b -> exists x y, palette_get [b] = Ok [x; y] /\ palette_set x y = ([], Ok [canon_byte b]).
Proof.
  intros b B. exists (palnth (b / 16)), (palnth (b mod 16)). split; [exact (palette_get_eq b B)|]. unfold is_byte in B.
  assert (B1 : 0 <= b / 16 < 16) by lia. assert (B2 : 0 <= b mod 16 < 16) by lia.
  exact (palette_set_silent _ _ _ (proj2 (wnear_spec _) (proj2 (pal_ok _ B1))) (proj2 (wnear_spec _) (proj2 (pal_ok _ B2))) (enc_dec2 b B)).
Qed.
Print Assumptions C55_bytes.
Theorem C55_bytes_unchanged : forall b, is_byte b -> b / 16 <> 11 -> b mod 16 <> 11 ->
  exists x y, palette_get [b] = Ok [x; y] /\ palette_set x y = ([], Ok [b]).
Proof.
  intros b B H1 H2. destruct (C55_bytes b B) as (x & y & G & S). exists x, y. split; [exact G|]. rewrite S. unfold canon_byte, canon_index.
  replace (b / 16 =? 11) with false by lia. replace (b mod 16 =? 11) with false by lia. do 2 f_equal. f_equal. unfold is_byte in B. lia.
Qed.
Print Assumptions C55_bytes_unchanged.
(** Whole pictures. *)
Lemma pairs_near row n : length row = (2 * n)%nat -> concat (map dec2 (map enc2 (pairs2 row))) = map near row.
Proof.
  intros L. destruct (pairs2_even n row L) as [E _]. rewrite E at 2. rewrite map_map. rewrite concat_map, map_map. f_equal.
  apply map_ext. intros p. apply dec_enc2.
Qed.
Lemma near_row row : Forall2 nearest_to row (map near row).
Proof. induction row as [|c row IH]; cbn [map]; constructor; [exact (near_spec c)|exact IH]. Qed.
Lemma near_rows arr : Forall2 (Forall2 nearest_to) arr (map (map near) arr).
Proof. induction arr as [|row arr IH]; cbn [map]; constructor; [apply near_row|exact IH]. Qed.
Theorem C55_load_array : forall e arr, e_cls e = KTIPicture -> writable 2 e -> grid 165 266 arr ->
  exists w e' arr', pic_load e arr = (w, Ok e') /\ length_field e' = 21945 /\ zlen (calc_data e') = 21947 /\
    pic_array (data e') = Ok arr' /\ Forall2 (Forall2 nearest_to) arr arr' /\
    (Forall (Forall (fun c => In c palette)) arr -> arr' = arr /\ ~ In WPalette w).
Proof.
  intros e arr C W [LA FA]. destruct (writable_inv 2 e W) as (v0 & D & M & V & B & ED & L2).
  unfold pic_load. rewrite pic_bytes_eq. cbn [obind]. set (rows := map (fun row => map enc2 (pairs2 row)) arr).
  assert (LR : length rows = 165%nat) by (unfold rows; now rewrite map_length).
  assert (FR : Forall (fun x => length x = 133%nat) rows).
  { unfold rows. apply Forall_forall. intros y Hy. apply in_map_iff in Hy as (row & <- & Hr). rewrite map_length. rewrite Forall_forall in FA.
    destruct (pairs2_even 133 row (FA row Hr)) as [_ ->]. reflexivity. }
  assert (WR : Forall wf_bytes rows).
  { unfold rows. apply Forall_forall. intros y Hy. apply in_map_iff in Hy as (row & <- & Hr). apply Forall_forall. intros b Hb. apply in_map_iff in Hb as (p & <- & _). apply enc2_byte. }
  assert (LC : zlen (concat rows) = 21945). { unfold zlen. rewrite (concat_length_const 133) by auto. rewrite LR, Nat2Z.inj_mul. reflexivity. }
  assert (BT : is_byte 10) by (unfold is_byte; lia).
  rewrite (set_data_sized_13 pic_version e (concat rows) D 10 [] v0); try (rewrite C; reflexivity); auto; try lia.
  2:{ intros e' HC. unfold pic_version. rewrite HC, C. reflexivity. }
  set (e1 := with_version e [10]). exists (concat (map wrow arr) ++ []). eexists. exists (map (map near) arr). split; [reflexivity|].
  assert (C1 : e_cls e1 = KTIPicture) by exact C.
  split; [rewrite length_after; rewrite ?C1, ?LC; auto; lia|]. split.
  { unfold calc_data, with_data. cbn [e_data b_data]. rewrite zlen_app, LC. reflexivity. }
  rewrite (data_after e1 (le16 (zlen (concat rows)))) by (rewrite C1; reflexivity). rewrite pic_array_rows by auto. split.
  { f_equal. unfold rows. rewrite map_map. apply map_ext_in. intros row Hr. rewrite Forall_forall in FA. apply (pairs_near row 133). rewrite (FA row Hr). reflexivity. }
  split.
  - apply near_rows.
  - intros P. split.
    + clear - P. induction P as [|row arr Pr P IH]; [reflexivity|]. cbn [map]. rewrite IH. f_equal. induction Pr as [|c row Pc Pr IHr]; [reflexivity|]. cbn [map]. rewrite IHr. f_equal. now apply near_palette.
    + intros I. apply in_app_or in I as [I | I].
      * rewrite in_concat in I. destruct I as (l & Hl & Il). apply in_map_iff in Hl as (row & <- & Hr). unfold wrow in Il. rewrite in_concat in Il. destruct Il as (l & Hl & Il).
        apply in_map_iff in Hl as (p & <- & Hp). rewrite Forall_forall in P. specialize (P row Hr). rewrite Forall_forall in P, FA.
        assert (IP : In (fst p) row /\ In (snd p) row). { destruct (pairs2_even 133 row (FA row Hr)) as [E _]. rewrite E. split; apply in_concat; exists [fst p; snd p]; (split; [apply in_map_iff; eauto|cbn; auto]). }
        destruct IP as [I1 I2]. rewrite (proj2 (wnear_spec (fst p))), (proj2 (wnear_spec (snd p))) in Il by auto. destruct Il.
      * destruct I.
Qed.
Print Assumptions C55_load_array.
Lemma byte_pair b : is_byte b -> palette_set (palnth (b / 16)) (palnth (b mod 16)) = ([], Ok [canon_byte b]).
Proof.
  intros B. assert (B1 : 0 <= b / 16 < 16) by (unfold is_byte in B; lia). assert (B2 : 0 <= b mod 16 < 16) by lia.
  exact (palette_set_silent _ _ _ (proj2 (wnear_spec _) (proj2 (pal_ok _ B1))) (proj2 (wnear_spec _) (proj2 (pal_ok _ B2))) (enc_dec2 b B)).
Qed.
Lemma omapM_silent {A B C} (f : B -> out C) (g : A -> B) (h : A -> C) l : (forall x, In x l -> f (g x) = ([], Ok (h x))) -> omapM f (map g l) = ([], Ok (map h l)).
Proof.
  induction l as [|x l IH]; intros H; [reflexivity|]. cbn [map omapM]. rewrite H by (left; reflexivity). rewrite IH by (intros; apply H; now right). reflexivity.
Qed.
(** Reading a whole picture and writing the pixels back: the bytes with index 11
    replaced, without warnings. *)
Theorem C55_picture_bytes : forall d, wf_bytes d -> zlen d = 21945 ->
  exists arr, pic_array d = Ok arr /\ grid 165 266 arr /\ pic_bytes arr = ([], Ok (map canon_byte d)).
Proof.
  intros d W L. destruct (rows_exact 133 165 d) as (rows & -> & LR & FR); [lia| |].
  { apply Nat2Z.inj. fold (zlen d). rewrite L, Nat2Z.inj_mul. reflexivity. }
  assert (WR : Forall wf_bytes rows). { clear - W. induction rows; [constructor|]. cbn in W. apply Forall_app in W as [A B]. constructor; auto. }
  exists (map (fun row => concat (map dec2 row)) rows). split; [now apply pic_array_rows|]. split.
  - split; [now rewrite map_length|]. apply Forall_forall. intros y Hy. apply in_map_iff in Hy as (row & <- & Hr). rewrite Forall_forall in FR.
    rewrite (concat_length_const 2). { rewrite map_length, FR by auto. reflexivity. }
    apply Forall_forall. intros x Hx. apply in_map_iff in Hx as (b & <- & _). reflexivity.
  - clear - WR. unfold pic_bytes. rewrite concat_map. rewrite (omapM_silent _ _ (map canon_byte)).
    + reflexivity.
    + intros row Hr. rewrite Forall_forall in WR. specialize (WR row Hr). clear - WR.
      assert (PE : pairs2 (concat (map dec2 row)) = map (fun b => (palnth (b / 16), palnth (b mod 16))) row).
      { induction row as [|b row IH]; [reflexivity|]. cbn [map concat dec2 app pairs2]. inversion WR; subst. now rewrite IH. }
      rewrite PE. clear PE.
      assert (X : omapM (fun p : rgb * rgb => palette_set (fst p) (snd p)) (map (fun b => (palnth (b / 16), palnth (b mod 16))) row) = ([], Ok (map (fun b => [canon_byte b]) row))).
      { induction WR as [|b row B WR IH]; [reflexivity|]. cbn [map omapM fst snd]. rewrite (byte_pair b B), IH. reflexivity. }
      rewrite X. cbn [obind oret app]. do 2 f_equal. clear. induction row as [|b row IH]; [reflexivity|]. cbn [map concat app]. now rewrite IH.
Qed.
Print Assumptions C55_picture_bytes.
(** A row of odd width loses its last pixel without any warning. *)
Theorem C55_odd_row_refuted : exists row, Forall (fun c => In c palette) row /\ length row = 3%nat /\
  pic_bytes [row] = pic_bytes [firstn 2 row].
Proof.
  exists [(255, 0, 0); (0, 0, 255); (255, 0, 0)]. split; [|split; [reflexivity|vm_compute; reflexivity]].
  repeat (constructor; [vm_compute; tauto|]). constructor.
Qed.
Print Assumptions C55_odd_row_refuted.
Definition pic0 : entry := Entry KTIPicture [13; 0] [7] ([96; 0] ++ zeros 6) [10] [128] (Buf true ([185; 85] ++ zeros 2)).
Example C55_example : writable 2 pic0 /\
  palette_set (255, 0, 0) (10, 10, 250) = ([WPalette], Ok [33]) /\ palette_get [33] = Ok [(255, 0, 0); (0, 0, 255)] /\
  palette_set (255, 0, 0) (0, 0, 255) = ([], Ok [33]) /\ canon_byte 187 = 0 /\ canon_byte 33 = 33.
Proof.
  split; [|repeat split; vm_compute; reflexivity].
  split; [reflexivity|]. split; [exists 10; split; [reflexivity|unfold is_byte; lia]|]. split; [reflexivity|]. vm_compute. lia.
Qed.
Example C55_example_picture : grid 165 266 (repeat (repeat (1, 2, 3) 266) 165) /\ ~ Forall (Forall (fun c => In c palette)) (repeat (repeat (1, 2, 3) 266) 165).
Proof.
  split.
  - split; [apply repeat_length|]. apply Forall_forall. intros x Hx. apply repeat_spec in Hx as ->. apply repeat_length.
  - intros H. rewrite Forall_forall in H. specialize (H (repeat (1, 2, 3) 266)). rewrite Forall_forall in H.
    assert (I : In (1, 2, 3) palette) by (apply H; [left; reflexivity|left; reflexivity]). vm_compute in I. intuition discriminate.
Qed.

(** C56: RGB565 pixels. *)
Theorem C56_bytes : forall lo hi, is_byte lo -> is_byte hi -> exists c, rgb565_get [lo; hi] = Ok c /\ rgb_ok c /\ rgb565_set c = Ok [lo; hi].
Proof.
  intros lo hi L H. exists (dec3 lo hi). destruct (enc_dec3 lo hi L H) as [O E]. split; [now apply dec3_eq|]. split; [exact O|].
  destruct (enc3_eq _ O) as (S & _). now rewrite S, E.
Qed.
Print Assumptions C56_bytes.
Theorem C56_close : forall c, rgb_ok c -> exists lo hi q, rgb565_set c = Ok [lo; hi] /\ is_byte lo /\ is_byte hi /\ rgb565_get [lo; hi] = Ok q /\ close c q.
Proof.
  intros c O. destruct (enc3_eq c O) as (S & W & L). pose proof (dec_enc3 c O) as D. destruct (enc3 c) as [|lo [|hi [|? ?]]]; try discriminate L.
  inversion W as [|? ? WL W2]; subst. inversion W2 as [|? ? WH _]; subst. exists lo, hi, (dec3 lo hi). split; [exact S|]. repeat (split; [assumption|]). split; [now apply dec3_eq|exact D].
Qed.
Print Assumptions C56_close.
(** Writing again changes nothing: encoding is stable after one round trip. *)
Theorem C56_stable : forall c lo hi q, rgb_ok c -> rgb565_set c = Ok [lo; hi] -> rgb565_get [lo; hi] = Ok q -> rgb565_set q = Ok [lo; hi].
Proof.
  intros c lo hi q O S G. destruct (C56_close c O) as (lo' & hi' & q' & S' & L & H & G' & _). rewrite S in S'. injection S' as <- <-.
  destruct (C56_bytes lo hi L H) as (x & G2 & _ & S2). congruence.
Qed.
Print Assumptions C56_stable.
(** Whole images. *)
Definition pairs_of (row : list rgb) : list bytes := map enc3 (row ++ [(0, 0, 0)]).
Lemma pairs_of_ok row : Forall rgb_ok row -> length row = 133%nat ->
  length (pairs_of row) = 134%nat /\ Forall (fun x => length x = 2%nat /\ wf_bytes x) (pairs_of row).
Proof.
  intros F L. unfold pairs_of. split; [now rewrite map_length, app_length, L|]. apply Forall_forall. intros x Hx. apply in_map_iff in Hx as (c & <- & Hc).
  assert (O : rgb_ok c). { apply in_app_or in Hc as [Hc | [<- | []]]; [|exact black_ok]. rewrite Forall_forall in F. auto. }
  destruct (enc3_eq c O) as (_ & W & L2). auto.
Qed.
Lemma pairs_back row : Forall rgb_ok row -> length row = 133%nat -> Forall2 close row (map decp (firstn 133 (pairs_of row))).
Proof.
  intros F L. unfold pairs_of. rewrite map_app, firstn_app_exact by (now rewrite map_length). clear L.
  induction F as [|c row O F IH]; [constructor|]. cbn [map]. constructor; [|exact IH]. pose proof (dec_enc3 c O) as D. unfold decp. destruct (enc3 c) as [|lo [|hi [|? ?]]]; tauto.
Qed.
Lemma image_rows_ok arr : grid 83 133 arr -> Forall (Forall rgb_ok) arr ->
  length (map pairs_of (rev arr)) = 83%nat /\
  Forall (fun prs => length prs = 134%nat /\ Forall (fun x => length x = 2%nat /\ wf_bytes x) prs) (map pairs_of (rev arr)).
Proof.
  intros [L F] O. split; [now rewrite map_length, rev_length|]. apply Forall_forall. intros y Hy. apply in_map_iff in Hy as (row & <- & Hr).
  apply in_rev in Hr. rewrite Forall_forall in F, O. apply pairs_of_ok; auto.
Qed.
Lemma image_bytes_pairs arr : Forall (Forall rgb_ok) arr -> image_bytes arr = Ok (concat (map (@concat Z) (map pairs_of (rev arr)))).
Proof. intros O. rewrite image_bytes_eq by exact O. rewrite map_map. reflexivity. Qed.
Lemma image_concat_len rows : length rows = 83%nat -> Forall (fun prs : list bytes => length prs = 134%nat /\ Forall (fun x => length x = 2%nat /\ wf_bytes x) prs) rows ->
  zlen (concat (map (@concat Z) rows)) = 22244.
Proof.
  intros L F. unfold zlen. rewrite (concat_length_const 268).
  - replace (length (map (@concat Z) rows)) with 83%nat by (rewrite map_length; symmetry; exact L). rewrite Nat2Z.inj_mul. reflexivity.
  - apply Forall_forall. intros y Hy. apply in_map_iff in Hy as (prs & <- & Hp). rewrite Forall_forall in F. destruct (F prs Hp) as [Lp Fp].
    rewrite (concat_length_const 2) by (eapply Forall_impl; [|exact Fp]; cbn; tauto).
    replace (length prs) with 134%nat by (symmetry; exact Lp). reflexivity.
Qed.
Lemma Forall2_rev_map {A B} (R : A -> B -> Prop) (f : A -> B) l : Forall (fun x => R x (f x)) l -> Forall2 R l (rev (map f (rev l))).
Proof.
  intros H. rewrite <- map_rev, rev_involutive. induction H; cbn [map]; constructor; auto.
Qed.
Lemma image_load_spec e arr : e_cls e = KImage -> writable 3 e -> grid 83 133 arr -> Forall (Forall rgb_ok) arr ->
  exists m d, image_load e arr = ([], Ok (with_data (with_version e [0]) (Buf true (le16 22244 ++ m :: d)))) /\
    zlen d = 22244 /\ nth 2 (b_data (e_data e)) 0 = m /\ exists arr', image_array d = Ok arr' /\ Forall2 (Forall2 close) arr arr'.
Proof.
  intros C W G O. destruct (writable_inv 3 e W) as (v0 & D & M & V & B & ED & L3).
  destruct D as [|x0 [|x1 [|m r]]]; try (cbn in L3; lia). destruct (image_rows_ok arr G O) as [LR FR].
  set (rows := map pairs_of (rev arr)) in *. exists m, (concat (map (@concat Z) rows)).
  pose proof (image_concat_len rows LR FR) as LC. assert (B0 : is_byte 0) by (unfold is_byte; lia).
  split; [|split; [exact LC|split; [now rewrite ED|]]].
  - unfold image_load. rewrite image_bytes_pairs by exact O. rewrite obind_lift. fold rows. rewrite <- LC.
    apply (set_data_image_13 pic_version e _ (x0 :: x1 :: m :: r) m r 0 [] v0); auto; try lia.
    intros e' HC. unfold pic_version. rewrite HC, C. reflexivity.
  - exists (rev (map (fun prs => map decp (firstn 133 prs)) rows)). split; [now apply image_array_rows|].
    unfold rows. rewrite map_map. apply (Forall2_rev_map (Forall2 close) (fun row => map decp (firstn 133 (pairs_of row)))).
    apply Forall_forall. intros row Hr. destruct G as [_ G]. rewrite Forall_forall in G, O. apply pairs_back; auto.
Qed.
Theorem C56_load_array : forall e arr, e_cls e = KImage -> writable 3 e -> grid 83 133 arr -> Forall (Forall rgb_ok) arr ->
  exists e' arr', image_load e arr = ([], Ok e') /\ zlen (calc_data e') = 22247 /\ image_array (data e') = Ok arr' /\ Forall2 (Forall2 close) arr arr'.
Proof.
  intros e arr C W G O. destruct (image_load_spec e arr C W G O) as (m & d & E & L & _ & arr' & A & F).
  eexists. exists arr'. split; [exact E|]. split; [unfold calc_data, with_data; cbn [e_data b_data]; rewrite zlen_app, zlen_cons, L; reflexivity|]. split; [|exact F].
  set (e1 := with_version e [0]). assert (C1 : e_cls e1 = KImage) by exact C.
  change (le16 22244 ++ m :: d) with ((le16 22244 ++ [m]) ++ d). rewrite (data_after e1) by (rewrite C1; reflexivity). exact A.
Qed.
Print Assumptions C56_load_array.
Lemma pixels_back (l : list (list Z)) : Forall (fun x => length x = 2%nat /\ wf_bytes x) l -> map (fun x => enc3 (decp x)) l = l.
Proof.
  intros F3. induction F3 as [|x l [L W] F IH]; [reflexivity|]. cbn [map]. rewrite IH. f_equal.
  destruct x as [|lo [|hi [|? ?]]]; try discriminate L. inversion W as [|? ? WL W3]; subst. inversion W3 as [|? ? WH _]; subst. cbn [decp]. now apply enc_dec3.
Qed.
(** Reading an image and writing it back: each row of 268 bytes keeps its 133
    pixels; the two padding bytes become zero. *)
Theorem C56_image_bytes : forall rows, length rows = 83%nat -> Forall (fun row => length row = 268%nat /\ wf_bytes row) rows ->
  exists arr, image_array (concat rows) = Ok arr /\ grid 83 133 arr /\ Forall (Forall rgb_ok) arr /\ image_bytes arr = Ok (clear_padding rows).
Proof.
  intros rows L F.
  assert (X : exists pr : list (list bytes), rows = map (@concat Z) pr /\ length pr = 83%nat /\
    Forall (fun prs => length prs = 134%nat /\ Forall (fun x => length x = 2%nat /\ wf_bytes x) prs) pr).
  { assert (Y : forall rs, Forall (fun row : bytes => length row = 268%nat /\ wf_bytes row) rs -> exists pr : list (list bytes), rs = map (@concat Z) pr /\ length pr = length rs /\
      Forall (fun prs => length prs = 134%nat /\ Forall (fun x => length x = 2%nat /\ wf_bytes x) prs) pr).
    { induction 1 as [|row rs [LR WR] FR (pr & E & LP & FP)]; [exists []; auto|].
      destruct (rows_exact 2 134 row) as (prs & -> & L1 & F1); [lia|exact LR|]. exists (prs :: pr). cbn [map length]. rewrite E at 1. split; [reflexivity|]. split; [congruence|].
      constructor; [|exact FP]. split; [exact L1|]. clear - WR F1. induction F1; constructor; cbn in WR; apply Forall_app in WR as [A B]; auto. }
    destruct (Y _ F) as (pr & E & LP & FP). exists pr. split; [exact E|]. split; [etransitivity; [exact LP|exact L]|exact FP]. }
  destruct X as (pr & -> & LP & FP). unfold bytes in *. exists (rev (map (fun prs => map decp (firstn 133 prs)) pr)).
  assert (OK : Forall (Forall rgb_ok) (map (fun prs => map decp (firstn 133 prs)) pr)).
  { apply Forall_forall. intros y Hy. apply in_map_iff in Hy as (prs & <- & Hp). rewrite Forall_forall in FP. destruct (FP prs Hp) as [_ F2].
    apply Forall_forall. intros c Hc. apply in_map_iff in Hc as (x & <- & Hx). rewrite Forall_forall in F2. destruct (F2 x) as [L2 W2].
    { rewrite <- (firstn_skipn 133 prs). apply in_or_app. now left. }
    destruct x as [|lo [|hi [|? ?]]]; try discriminate L2. inversion W2 as [|? ? WL W3]; subst. inversion W3 as [|? ? WH _]; subst. cbn [decp]. now apply enc_dec3. }
  split; [now apply image_array_rows|]. split; [|split].
  - split; [now rewrite rev_length, map_length|]. apply Forall_rev. apply Forall_forall. intros y Hy. apply in_map_iff in Hy as (prs & <- & Hp).
    rewrite Forall_forall in FP. destruct (FP prs Hp) as [L2 _]. rewrite map_length, firstn_length_le; [reflexivity|]. etransitivity; [|apply Nat.eq_le_incl; symmetry; exact L2]. lia.
  - now apply Forall_rev.
  - rewrite image_bytes_eq by now apply Forall_rev. rewrite rev_involutive. unfold clear_padding. rewrite !map_map. do 2 f_equal. apply map_ext_in. intros prs Hp.
    rewrite Forall_forall in FP. destruct (FP prs Hp) as [L2 F2]. unfold irow. rewrite map_app, concat_app. f_equal.
    rewrite <- (firstn_skipn 133 prs) at 2. rewrite concat_app, firstn_app_exact.
    + assert (F3 : Forall (fun x => length x = 2%nat /\ wf_bytes x) (firstn 133 prs)) by (rewrite <- (firstn_skipn 133 prs) in F2; now apply Forall_app in F2).
      f_equal. rewrite map_map. exact (pixels_back _ F3).
    + rewrite (concat_length_const 2). { rewrite firstn_length_le; [reflexivity|]. etransitivity; [|apply Nat.eq_le_incl; symmetry; exact L2]. lia. }
      rewrite <- (firstn_skipn 133 prs) in F2. apply Forall_app in F2 as [F2 _]. eapply Forall_impl; [|exact F2]. cbn. tauto.
Qed.
Print Assumptions C56_image_bytes.
Definition img0 : entry := Entry KImage [13; 0] [26] ([60; 0] ++ zeros 6) [0] [128] (Buf true ([229; 86; 129] ++ zeros 5)).
Definition img_arr : list (list rgb) := repeat ([(200, 100, 50)] ++ repeat (255, 255, 255) 132) 83.
Lemma img_arr_ok : grid 83 133 img_arr /\ Forall (Forall rgb_ok) img_arr.
Proof.
  split; [split; [reflexivity|]|]; apply Forall_forall; intros x Hx; apply repeat_spec in Hx as ->; [reflexivity|].
  apply Forall_forall. intros c Hc. cbn in Hc. unfold rgb_ok, is_byte. intuition (subst; cbn; lia).
Qed.
Lemma img0_ok : writable 3 img0.
Proof. split; [reflexivity|]. split; [exists 0; split; [reflexivity|unfold is_byte; lia]|]. split; [reflexivity|]. vm_compute. lia. Qed.
Example C56_example : e_cls img0 = KImage /\ writable 3 img0 /\ grid 83 133 img_arr /\ Forall (Forall rgb_ok) img_arr /\
  rgb565_set (200, 100, 50) = Ok [38; 203] /\ rgb565_get [38; 203] = Ok (205, 101, 49).
Proof.
  split; [reflexivity|]. split; [exact img0_ok|]. split; [apply img_arr_ok|]. split; [apply img_arr_ok|]. split; vm_compute; reflexivity.
Qed.

(** C57 is false: after [load_array] the length word of an image is one less than
    the number of bytes after it, so reading the saved entry warns about the
    length, whatever image was loaded. *)
Theorem C57_length_refuted : forall ps e arr a, e_cls e = KImage -> writable 3 e -> e_type e = [26] -> length (e_name e) = 8%nat ->
  e_archived e = [a] -> grid 83 133 arr -> Forall (Forall rgb_ok) arr ->
  exists e', image_load e arr = ([], Ok e') /\ length_field e' = 22244 /\ zlen (calc_data e') - 2 = 22245 /\
    In WPicLength (fst (entry_load ps KEntry (image_of e'))) /\ In WPicLength (fst (entry_load ps KImage (image_of e'))).
Proof.
  intros ps e arr a C W T N A G O. destruct (image_load_spec e arr C W G O) as (m & d & E & L & _).
  eexists. split; [exact E|]. set (e1 := with_version e [0]). assert (C1 : e_cls e1 = KImage) by exact C.
  split; [apply length_after; [rewrite C1; reflexivity|lia]|]. split; [unfold calc_data, with_data; cbn [e_data b_data]; rewrite zlen_app, zlen_cons, L; reflexivity|].
  set (P := le16 22244 ++ m :: d). assert (LP : zlen P = 22247) by (unfold P; rewrite zlen_app, zlen_cons, L; reflexivity).
  assert (I : image_of (with_data e1 (Buf true P)) = entry_image 13 26 (e_name e) [0; a] P ++ []).
  { unfold image_of. unfold with_data, e1, with_version. cbn [e_meta e_type e_name e_version e_archived e_data b_data]. rewrite app_nil_r.
    destruct W as (M & _). rewrite M, T, A. reflexivity. }
  rewrite I. assert (B26 : is_byte 26) by (unfold is_byte; lia). assert (NE : [0; a] <> le16 (zlen P)) by (rewrite LP; vm_compute; discriminate).
  rewrite !load_image_13 by (auto; lia). clear I NE.
  assert (LF : forall c, length_view c = View (Some 0) (Some 2) -> length_field (Entry c [13; 0] [26] (e_name e) [0] [a] (Buf true P)) = 22244).
  { intros c Hc. exact (length_after (Entry c [13; 0] [26] (e_name e) [0] [a] (Buf true [])) 22244 (m :: d) Hc ltac:(lia)). }
  assert (FIN : forall ps' e0 w r, coerce ps' e0 = (w, r) -> In WPicLength w -> In WPicLength (fst (finish ps' e0))).
  { intros ps' e0 w r HC IW. unfold finish. rewrite HC. destruct r as [x|]; cbn [obind]; [|exact IW]. match goal with |- In _ (fst (let '(_, _) := ?q in _)) => destruct q end. cbn [fst]. apply in_or_app. now left. }
  assert (CO : forall ps', coerce ps' (Entry KImage [13; 0] [26] (e_name e) [0] [a] (Buf true P)) = ([WPicLength], Ok (Entry KImage [13; 0] [26] (e_name e) [0] [a] (Buf true P)))).
  { intros ps'. unfold coerce. cbn [e_cls]. unfold coerce_own. cbn [e_cls]. change (issubclass KImage KProgram) with false. change (cls_eqb KImage KGraphedEquation) with false.
    change (issubclass KImage KList) with false. change (issubclass KImage KComplexEntry) with false. change (issubclass KImage KPicture) with true. cbv iota.
    unfold coerce_picture. rewrite (LF KImage) by reflexivity. reflexivity. }
  split.
  - assert (CB : coerce ps (Entry KEntry [13; 0] [26] (e_name e) [0] [a] (Buf true P)) = ([WPicLength], Ok (Entry KImage [13; 0] [26] (e_name e) [0] [a] (Buf true P)))).
    { unfold coerce. cbn [e_cls]. unfold coerce_base. rewrite (type_id_byte _ 26) by (auto; reflexivity). rewrite obind_lift. change (get_type 26) with (Some KImage).
      unfold with_cls. cbn [e_meta e_type e_name e_version e_archived e_data]. exact (CO ps). }
    change (type_check KEntry 26) with (@oret unit tt). rewrite obind_oret. cbn [obind]. 
    specialize (FIN ps _ _ _ CB (or_introl eq_refl)). destruct (finish ps (Entry KEntry [13; 0] [26] (e_name e) [0] [a] (Buf true P))). cbn [fst] in *. apply in_or_app. now right.
  - change (type_check KImage 26) with (@oret unit tt). rewrite obind_oret. cbn [obind]. 
    specialize (FIN ps _ _ _ (CO ps) (or_introl eq_refl)). destruct (finish ps (Entry KImage [13; 0] [26] (e_name e) [0] [a] (Buf true P))). cbn [fst] in *. apply in_or_app. now right.
Qed.
Print Assumptions C57_length_refuted.
Example C57_example : e_cls img0 = KImage /\ writable 3 img0 /\ e_type img0 = [26] /\ length (e_name img0) = 8%nat /\ e_archived img0 = [128] /\
  grid 83 133 img_arr /\ Forall (Forall rgb_ok) img_arr.
Proof. split; [reflexivity|]. split; [exact img0_ok|]. do 3 (split; [reflexivity|]). exact img_arr_ok. Qed.

(** C58: image names. *)
Theorem C58_image : forall uni e k, 1 <= k <= 9 ->
  exists e', set_image_name uni e (s2l "Image" ++ [48 + k]) = ([], Ok e') /\ set_image_name uni e [48 + k] = ([], Ok e') /\
    e_name e' = [60; k - 1; 0; 0; 0; 0; 0; 0] /\ image_name e' = Ok (s2l "Image" ++ [48 + k]).
Proof.
  intros uni e k K. assert (C : k = 1 \/ k = 2 \/ k = 3 \/ k = 4 \/ k = 5 \/ k = 6 \/ k = 7 \/ k = 8 \/ k = 9) by lia.
  repeat (destruct C as [-> | C]; [eexists; split; [vm_compute; reflexivity|]; repeat split; vm_compute; reflexivity|]).
  subst. eexists. split; [vm_compute; reflexivity|]. repeat split; vm_compute; reflexivity.
Qed.
Print Assumptions C58_image.
(** Image0, the tenth image, cannot be written by name. *)
Theorem C58_image0_refuted : forall uni e, set_image_name uni e (s2l "Image0") = ([], Err ValueError).
Proof. intros. vm_compute. reflexivity. Qed.
Print Assumptions C58_image0_refuted.
(** The stored name of the tenth image reads as "Image10", which written back
    becomes Image1 with a warning. *)
Theorem C58_image10_refuted : forall uni e, e_name e = [60; 9; 0; 0; 0; 0; 0; 0] ->
  image_name e = Ok (s2l "Image10") /\
  exists e', set_image_name uni e (s2l "Image10") = ([WImageName], Ok e') /\ e_name e' = [60; 0; 0; 0; 0; 0; 0; 0].
Proof.
  intros uni e H. split; [unfold image_name; rewrite H; vm_compute; reflexivity|]. eexists. split; [vm_compute; reflexivity|]. reflexivity.
Qed.
Print Assumptions C58_image10_refuted.
Lemma starts_with_prefix q : forall l, starts_with q l = true -> exists r, l = q ++ r.
Proof.
  induction q as [|x q IH]; intros l H; [exists l; reflexivity|]. destruct l as [|y l]; [discriminate H|]. cbn [starts_with] in H.
  apply andb_true_iff in H as [H1 H2]. destruct (IH l H2) as (r & ->). exists r. cbn [app]. f_equal. lia.
Qed.
(** Any other name is replaced by Image1, with a warning. *)
Theorem C58_other : forall uni e s, (forall c, s <> [c] /\ s <> s2l "Image" ++ [c]) ->
  exists e', set_image_name uni e s = ([WImageName], Ok e') /\ image_name e' = Ok (s2l "Image1").
Proof.
  intros uni e s H. assert (M : image_match uni s = None).
  { unfold image_match. destruct (starts_with (s2l "Image") s) eqn:E.
    - assert (X : exists r, s = s2l "Image" ++ r).
      { now apply starts_with_prefix. }
      destruct X as (r & ->). change (skipn 5 (s2l "Image" ++ r)) with r. destruct r as [|c [|c2 r]]; try reflexivity. destruct (H c) as [_ N]. now contradict N.
    - destruct s as [|c [|c2 r]]; try reflexivity. destruct (H c) as [N _]. now contradict N. }
  unfold set_image_name, image_name_set. rewrite M. eexists. split; [vm_compute; reflexivity|]. vm_compute. reflexivity.
Qed.
Print Assumptions C58_other.
Example C58_example : exists e', set_image_name (fun _ => None) img0 (s2l "Image7") = ([], Ok e') /\ image_name e' = Ok (s2l "Image7") /\
  (forall c, s2l "Imag7" <> [c] /\ s2l "Imag7" <> s2l "Image" ++ [c]).
Proof. eexists. split; [vm_compute; reflexivity|]. split; [vm_compute; reflexivity|]. intros c. split; intros H; apply (f_equal (@length Z)) in H; discriminate H. Qed.
