(** Lemmas about var files: the entry loop, round trip, checksum. *)
From Verif Require Import L_Base M_Data M_Flags M_Models M_Class M_Var S_Data L_Data L_Flags S_Var L_Models L_Var.

(** ** Streams *)
Lemma st_read_rest n s : st_rest (snd (st_read n s)) = skipn n (st_rest s) .
Proof.
  unfold st_read, st_rest. cbn [snd st_buf st_pos].
  rewrite <- skipn_skipn'. rewrite firstn_length. 
  set (l := skipn (st_pos s) (st_buf s)). destruct (Nat.le_gt_cases n (length l)).
  - now rewrite Nat.min_l by auto.
  - rewrite Nat.min_r by lia. now rewrite !skipn_ge by lia.
Qed.
Lemma st_read_buf n s : st_buf (snd (st_read n s)) = st_buf s.
Proof. reflexivity. Qed.

Lemma st_read_wf n s a s1 : st_read n s = (a, s1) -> wf_bytes (st_buf s) -> wf_bytes a /\ st_buf s1 = st_buf s.
Proof.
  intros H W. unfold st_read in H. injection H as <- <-. split; [|reflexivity].
  apply wf_firstn, wf_skipn. exact W.
Qed.

Lemma next_len_peek s a b c d r : st_rest s = a :: b :: c :: d :: r ->
  next_entry_length s =
  ((if (a + 256 * b =? 11) || (a + 256 * b =? 13) then [] else [WMetaLength]),
   Ok (4 + (a + 256 * b) + (c + 256 * d), s)).
Proof.
  intros H. unfold next_entry_length. destruct (st_read 2 s) as [x s1] eqn:E1.
  assert (X : x = [a; b] /\ st_rest s1 = c :: d :: r /\ st_pos s1 = (st_pos s + 2)%nat /\ st_buf s1 = st_buf s).
  { pose proof (st_read_rest 2 s) as R. rewrite E1 in R. cbn [snd] in R. rewrite H in R. cbn [skipn] in R.
    unfold st_read in E1. rewrite H in E1. injection E1 as <- <-. cbn. auto. }
  destruct X as (-> & R1 & P1 & B1). destruct (st_read 2 s1) as [y s2] eqn:E2.
  assert (Y : y = [c; d] /\ st_pos s2 = (st_pos s1 + 2)%nat /\ st_buf s2 = st_buf s1).
  { unfold st_read in E2. rewrite R1 in E2. injection E2 as <- <-. cbn. auto. }
  destruct Y as (-> & P2 & B2). unfold st_seek. rewrite P2, P1, B2, B1.
  replace (Z.to_nat (Z.max 0 (Z.of_nat (st_pos s + 2 + 2) + -4))) with (st_pos s) by lia.
  cbn [le_int]. rewrite !Z.mul_0_r, !Z.add_0_r. unfold owarn_if, oret. cbn [obind].
  destruct ((a + 256 * b =? 11) || (a + 256 * b =? 13)); cbn [negb app]; (do 3 f_equal; [lia|now destruct s]).
Qed.

Lemma image_head e : storable e -> exists m r, (m = 11 \/ m = 13) /\
  image_of e = m :: 0 :: zlen (b_data (e_data e)) mod 256 :: zlen (b_data (e_data e)) / 256 :: r /\
  entry_len e = 4 + m + zlen (b_data (e_data e)).
Proof.
  intros [M (t & T & Bt) N (v & V & Bv) (a & A & Ba) NF D Mut]. unfold image_of. rewrite T. unfold entry_image, entry_len.
  unfold calc_data_length, calc_data.
  destruct M as [M|M]; rewrite M.
  - exists 11. rewrite (meta_len_11 e M). eexists. split; auto. split; [reflexivity|lia].
  - exists 13. rewrite (meta_len_13 e M). eexists. split; auto. split; [reflexivity|lia].
Qed.

Lemma next_len_image e s rest : storable e -> st_rest s = image_of e ++ rest ->
  next_entry_length s = ([], Ok (zlen (image_of e), s)).
Proof.
  intros St H. pose proof (entry_len_image e St) as L. pose proof (st_data e St) as D.
  destruct (image_head e St) as (m & r & Hm & E & EL). rewrite <- L, EL. rewrite E in H. cbn [app] in H.
  rewrite (next_len_peek s _ _ _ _ _ H).
  pose proof (zlen_nonneg (b_data (e_data e))).
  replace ((m + 256 * 0 =? 11) || (m + 256 * 0 =? 13)) with true by (destruct Hm; subst; reflexivity).
  do 3 f_equal. lia.
Qed.

Lemma removelast_snoc {A} (l : list A) x : removelast (l ++ [x]) = l.
Proof. apply removelast_last. Qed.

(** ** The entry loop on well-formed entries *)
Section Load.
  Variable name_set : cls -> str -> out bytes.
  Variable get_version : entry -> option bytes -> out Z.
  Variable ps : bytes -> option bool.

  Notation good := restorable.

  Lemma load_one e v rest left fuel w0 e0 s : good e ->
    entry_default name_set get_version ps = (w0, Ok e0) -> quietw w0 ->
    st_rest s = image_of e ++ rest -> 0 < left ->
    exists w e' s', same_raw e' e /\ quietw w /\ st_rest s' = rest /\ st_buf s' = st_buf s /\
      load_entries name_set get_version ps (S fuel) left s v =
      do _ := (w, Ok tt) in
      load_entries name_set get_version ps fuel (left - zlen (image_of e)) s'
        (Var (v_header v) (v_entries v ++ [e']) (v_model v)).
  Proof.
    intros (St & NA & SD) D Q R L.
    destruct (load_storable ps KEntry e [] St NA SD) as (we & e' & EL & SR & QW). rewrite app_nil_r in EL.
    assert (QE : quietw we).
    { destruct (st_type e St) as (t & T & _). now apply (QW t T). }
    set (wc := match v_entries v with [] => [] | x :: _ => if negb (meta_length e0 =? meta_length x) then [WConflict] else [] end).
    assert (QC : quietw wc).
    { unfold wc. destruct (v_entries v); [apply quietw_nil|]. destruct (negb _); [intros x [<-|[]]; reflexivity|apply quietw_nil]. }
    exists (w0 ++ wc ++ we), e', (snd (st_read (Z.to_nat (zlen (image_of e))) s)).
    split; auto. split; [auto using quietw_app|].
    rewrite st_read_rest, R, to_nat_zlen, skipn_app_exact by reflexivity.
    split; [reflexivity|]. split; [reflexivity|].
    cbn [load_entries]. replace (left <=? 0) with false by lia.
    unfold add_entry. rewrite D.
    assert (RD : fst (st_read (length (image_of e)) s) = image_of e).
    { unfold st_read. rewrite R. cbn [fst]. now apply firstn_app_exact. }
    assert (X : forall (f : var -> out (Z * stream * var)),
      obind (obind (w0, Ok e0) (fun x => do _ := match v_entries v with [] => oret tt | e1 :: _ => owarn_if (negb (meta_length x =? meta_length e1)) WConflict end in
               oret (Var (v_header v) (v_entries v ++ [x]) (v_model v)))) f =
      obind (w0 ++ wc, Ok tt) (fun _ => f (Var (v_header v) (v_entries v ++ [e0]) (v_model v)))).
    { intros f. unfold wc. destruct (v_entries v) as [|e1 es]; cbn [obind oret owarn_if app]; destruct (f _); cbn; now rewrite ?app_nil_r. }
    rewrite X. clear X. cbn [v_header v_entries v_model].
    rewrite (next_len_image e s rest St R). rewrite obind_ret_l, to_nat_zlen.
    destruct (st_read (length (image_of e)) s) as [d s'] eqn:Es. cbn [fst snd] in *. subst d.
    rewrite EL, Z.eqb_refl. cbn [negb]. rewrite removelast_snoc.
    cbn [obind]. unfold owarn_if. cbn [obind app].
    destruct (load_entries _ _ _ _ _ _ _) as [wr rr]. now rewrite <- !app_assoc.
  Qed.

  Lemma load_many es : forall v rest fuel w0 e0 s, Forall good es ->
    entry_default name_set get_version ps = (w0, Ok e0) -> quietw w0 ->
    st_rest s = concat (map image_of es) ++ rest -> (length es <= fuel)%nat ->
    exists w es' s', Forall2 same_raw es' es /\ quietw w /\ st_rest s' = rest /\
      load_entries name_set get_version ps fuel (zlen (concat (map image_of es))) s v =
      (w, Ok (0, s', Var (v_header v) (v_entries v ++ es') (v_model v))).
  Proof.
    induction es as [|e es IH]; intros v rest fuel w0 e0 s G D Q R F.
    - exists [], [], s. split; [constructor|]. split; [apply quietw_nil|]. split; [exact R|].
      rewrite app_nil_r. destruct v; destruct fuel; reflexivity.
    - inversion G as [|? ? G1 G2]; subst. destruct fuel as [|fuel]; [simpl in F; lia|].
      cbn [map concat] in *. rewrite <- app_assoc in R.
      assert (P : 0 < zlen (image_of e)).
      { destruct G1 as (St & _ & _). rewrite <- (entry_len_image e St).
        destruct (image_head e St) as (m & r & Hm & _ & ->). pose proof (zlen_nonneg (b_data (e_data e))). lia. }
      pose proof (zlen_nonneg (concat (map image_of es))).
      destruct (load_one e v (concat (map image_of es) ++ rest) (zlen (image_of e ++ concat (map image_of es))) fuel w0 e0 s G1 D Q R)
        as (w & e' & s' & SR & QW & R' & _ & E); [rewrite zlen_app; lia|].
      rewrite E. rewrite zlen_app. replace (zlen (image_of e) + zlen (concat (map image_of es)) - zlen (image_of e)) with (zlen (concat (map image_of es))) by lia.
      destruct (IH (Var (v_header v) (v_entries v ++ [e']) (v_model v)) rest fuel w0 e0 s' G2 D Q R') as (w2 & es' & s2 & S2 & Q2 & R2 & E2); [simpl in F; lia|].
      rewrite E2. cbn [obind v_header v_entries v_model]. exists (w ++ w2), (e' :: es'), s2.
      split; [now constructor|]. split; [now apply quietw_app|]. split; auto.
      now rewrite <- app_assoc.
  Qed.

  (** ** The entry loop on arbitrary bytes *)
  Lemma next_len_ge s w len s' : wf_bytes (st_buf s) ->
    next_entry_length s = (w, Ok (len, s')) -> 4 <= len /\ st_buf s' = st_buf s.
  Proof.
    intros W H. unfold next_entry_length in H.
    destruct (st_read 2 s) as [a s1] eqn:E1. apply st_read_wf in E1 as [W1 B1]; auto.
    destruct (st_read 2 s1) as [b s2] eqn:E2. apply st_read_wf in E2 as [W2 B2]; [|now rewrite B1].
    apply obind_ok in H as (? & ? & ? & _ & H & _). unfold oret in H. injection H as _ <- <-. cbn [st_buf st_seek].
    apply le_int_nonneg in W1, W2. split; [lia|congruence].
  Qed.
  Lemma add_entry_len v e w v' : add_entry name_set get_version ps v e = (w, Ok v') ->
    exists x, v_entries v' = v_entries v ++ [x] /\ v_header v' = v_header v /\ v_model v' = v_model v.
  Proof.
    unfold add_entry. intros H. apply obind_ok in H as (? & x & ? & _ & H & _).
    apply obind_ok in H as (? & ? & ? & _ & H & _). injection H as _ <-. exists x. auto.
  Qed.
  Lemma load_entries_bound fuel : forall left s v w left' s' v', wf_bytes (st_buf s) ->
    left <= 4 * Z.of_nat fuel ->
    load_entries name_set get_version ps fuel left s v = (w, Ok (left', s', v')) ->
    left' <= 0 /\ zlen (v_entries v') <= zlen (v_entries v) + Z.max 0 ((left + 3) / 4) /\
    v_header v' = v_header v /\ v_model v' = v_model v /\ st_buf s' = st_buf s.
  Proof.
    induction fuel as [|fuel IH]; intros left s v w left' s' v' W F H; cbn [load_entries] in H;
      destruct (left <=? 0) eqn:L.
    1,3: injection H as _ <- <- <-; repeat split; auto; lia.
    - lia.
    - apply obind_ok in H as (? & v1 & ? & A & H & _). apply obind_ok in H as (? & p & ? & N & H & _).
      destruct p as [len s1]. apply next_len_ge in N as [N B]; auto.
      apply add_entry_len in A as (xe & A1 & A2 & A3).
      destruct (st_read (Z.to_nat len) s1) as [d s2] eqn:Es. apply (f_equal snd), (f_equal st_buf) in Es. rewrite st_read_buf in Es. cbn in Es.
      apply obind_ok in H as (? & e & ? & _ & H & _). apply obind_ok in H as (? & ? & ? & _ & H & _).
      apply IH in H; [|rewrite <- Es, B; auto|lia]. cbn [v_entries v_header v_model] in H.
      rewrite A1, removelast_snoc, zlen_app in H. change (zlen [e]) with 1 in H.
      destruct H as (H1 & H2 & H3 & H4 & H5). repeat split; try congruence; lia.
  Qed.
  Lemma load_entries_fuel f1 : forall f2 left s v, wf_bytes (st_buf s) ->
    left <= 4 * Z.of_nat f1 -> left <= 4 * Z.of_nat f2 ->
    load_entries name_set get_version ps f1 left s v = load_entries name_set get_version ps f2 left s v.
  Proof.
    induction f1 as [|f1 IH]; intros f2 left s v W F1 F2.
    - destruct f2; cbn [load_entries]; replace (left <=? 0) with true by lia; reflexivity.
    - destruct f2 as [|f2].
      + cbn [load_entries]. replace (left <=? 0) with true by lia. reflexivity.
      + cbn [load_entries]. destruct (left <=? 0) eqn:L; [reflexivity|]. apply obind_ext. intros v1.
        destruct (next_entry_length s) as [wn [[len s1]|e]] eqn:N; [|reflexivity].
        apply next_len_ge in N as [N B]; auto. cbn [obind].
        destruct (st_read (Z.to_nat len) s1) as [d s2] eqn:Es. apply (f_equal snd), (f_equal st_buf) in Es. rewrite st_read_buf in Es. cbn in Es.
        assert (X : forall e, (do _ := owarn_if (negb (zlen d =? len)) WDataLength in
            load_entries name_set get_version ps f1 (left - len) s2 (Var (v_header v1) (removelast (v_entries v1) ++ [e]) (v_model v1))) =
          (do _ := owarn_if (negb (zlen d =? len)) WDataLength in
            load_entries name_set get_version ps f2 (left - len) s2 (Var (v_header v1) (removelast (v_entries v1) ++ [e]) (v_model v1)))).
        { intros e. apply obind_ext. intros _. apply IH; try lia. rewrite <- Es, B. auto. }
        destruct (entry_load ps KEntry d) as [we [e|x]]; cbn [obind]; [|reflexivity]. specialize (X e). now rewrite X.
  Qed.
End Load.

(** ** Sums *)
Lemma zsum_app a b : zsum (a ++ b) = zsum a + zsum b.
Proof. induction a; simpl; lia. Qed.
Lemma zsum_concat ls : zsum (concat ls) = zsum (map zsum ls).
Proof. induction ls; simpl; auto. now rewrite zsum_app, IHls. Qed.
Lemma land_65535 n : Z.land n 65535 = n mod 65536.
Proof. change 65535 with (Z.ones 16). now rewrite Z.land_ones by lia. Qed.
Lemma rmapM_images es : Forall storable es -> rmapM entry_bytes es = Ok (map image_of es).
Proof.
  induction 1; cbn [rmapM map]; auto. rewrite entry_bytes_image by auto. cbn [rbind]. rewrite IHForall. reflexivity.
Qed.
Lemma checksum_spec v : Forall storable (v_entries v) ->
  checksum v = Ok (le16 (zsum (concat (map image_of (v_entries v))) mod 65536)).
Proof.
  intros H. unfold checksum. rewrite rmapM_images by auto. cbn [rbind]. rewrite land_65535, <- zsum_concat.
  assert (B : 0 <= zsum (concat (map image_of (v_entries v))) mod 65536 < 65536) by (apply Z.mod_pos_bound; lia).
  unfold to_bytes_le. replace (fits 2 _) with true by (symmetry; apply fits_spec; change (256 ^ Z.of_nat 2) with 65536; lia).
  now rewrite le16_le_bytes.
Qed.
Lemma entry_length_spec v : Forall storable (v_entries v) ->
  entry_length v = zlen (concat (map image_of (v_entries v))).
Proof.
  intros H. unfold entry_length. induction H; cbn [map concat zsum fold_right]; auto.
  rewrite zlen_app. rewrite entry_len_image by auto. f_equal. exact IHForall.
Qed.

Lemma var_bytes_image v : Forall storable (v_entries v) -> entry_length v < 65536 ->
  var_bytes v = Ok (file_image (header_bytes (v_header v)) (map image_of (v_entries v))).
Proof.
  intros H L. unfold var_bytes, file_image. rewrite checksum_spec, rmapM_images by auto.
  rewrite entry_length_spec in * by auto. pose proof (zlen_nonneg (concat (map image_of (v_entries v)))).
  unfold to_bytes_le. replace (fits 2 _) with true by (symmetry; apply fits_spec; change (256 ^ Z.of_nat 2) with 65536; lia).
  cbn [rbind]. now rewrite <- le16_le_bytes by lia.
Qed.

Lemma same_raw_image a b : same_raw a b -> image_of a = image_of b.
Proof. intros (E1&E2&E3&E4&E5&E6). unfold image_of. now rewrite E1, E2, E3, E4, E5, E6. Qed.
Lemma same_raw_storable a b : same_raw a b -> storable b -> storable a.
Proof.
  intros (E1&E2&E3&E4&E5&E6) [M T N V A NF D Mut].
  constructor; rewrite ?E1, ?E2, ?E3, ?E4, ?E5, ?E6; auto.
Qed.
Lemma Forall2_storable es' es : Forall2 same_raw es' es -> Forall storable es -> Forall storable es'.
Proof. induction 1; intros H2; inversion H2; subst; constructor; eauto using same_raw_storable. Qed.
Lemma Forall2_images es' es : Forall2 same_raw es' es -> map image_of es' = map image_of es.
Proof. induction 1; cbn [map]; auto. now rewrite (same_raw_image _ _ H), IHForall2. Qed.

Lemma images_count es : Forall storable es -> (length es <= Z.to_nat (zlen (concat (map image_of es))))%nat.
Proof.
  induction 1 as [|e es St H IH]; cbn [map concat length]; [lia|]. rewrite zlen_app.
  rewrite <- (entry_len_image e St). destruct (image_head e St) as (m & r & Hm & _ & ->).
  pose proof (zlen_nonneg (b_data (e_data e))). pose proof (zlen_nonneg (concat (map image_of es))). lia.
Qed.

Lemma st_read_app (a b : bytes) n p buf : length a = n -> skipn p buf = a ++ b ->
  exists s', st_read n (Stream buf p) = (a, s') /\ st_rest s' = b /\ st_buf s' = buf.
Proof.
  intros L H. exists (snd (st_read n (Stream buf p))). rewrite st_read_rest. unfold st_rest at 1. cbn [st_buf st_pos].
  rewrite H, skipn_app_exact by auto. split; [|split; auto].
  unfold st_read, st_rest. cbn [st_buf st_pos snd]. rewrite H. now rewrite firstn_app_exact by auto.
Qed.

(** Loading a file with the given entries, any trailing two bytes and further
    bytes. *)
Lemma var_load_image name_set get_version ps order set_order v0 h es c1 c2 rest w0 e0 :
  header_wf h -> Forall restorable es -> zlen (concat (map image_of es)) < 65536 ->
  entry_default name_set get_version ps = (w0, Ok e0) -> quietw w0 ->
  fst (model_check order set_order (v_model v0) h) = [] \/ fst (model_check order set_order (v_model v0) h) = [WModel] ->
  snd (model_check order set_order (v_model v0) h) = Ok tt ->
  exists w es', quietw w /\ Forall2 same_raw es' es /\
    var_load name_set get_version ps order set_order v0
      (header_bytes h ++ le16 (zlen (concat (map image_of es))) ++ concat (map image_of es) ++ [c1; c2] ++ rest) =
    (w ++ (if leqb [c1; c2] (le16 (zsum (concat (map image_of es)) mod 65536)) then [] else [WChecksum]),
     Ok (Var h es' (v_model v0))).
Proof.
  intros HW G L D Q MC1 MC2. pose proof (zlen_nonneg (concat (map image_of es))) as P.
  unfold var_load.
  set (body := concat (map image_of es)) in *.
  assert (LH : length (header_bytes h) = 53%nat).
  { destruct HW as (A & B & (p & C & _) & E). unfold header_bytes. rewrite !app_length, A, B, C, E. reflexivity. }
  destruct (st_read_app (header_bytes h) (le16 (zlen body) ++ body ++ [c1; c2] ++ rest) 53 0 (header_bytes h ++ le16 (zlen body) ++ body ++ [c1; c2] ++ rest) LH eq_refl)
    as (s1 & E1 & R1 & B1). rewrite E1.
  destruct s1 as [bf p1]. cbn [st_buf] in B1. subst bf. unfold st_rest in R1. cbn [st_buf st_pos] in R1.
  destruct (st_read_app (le16 (zlen body)) (body ++ [c1; c2] ++ rest) 2 p1 _ eq_refl R1) as (s2 & E2 & R2 & B2). rewrite E2.
  rewrite le_int_le16 by lia.
  assert (HL : header_load (header_bytes h) = h) by (rewrite <- (app_nil_r (header_bytes h)); now apply header_restore).
  rewrite HL.
  assert (SE : Forall storable es) by (eapply Forall_impl; [|exact G]; intros ? (?&_); auto).
  destruct (load_many name_set get_version ps es (Var h [] (v_model v0)) ([c1; c2] ++ rest) (Z.to_nat (zlen body)) w0 e0 s2 G D Q R2)
    as (w & es' & s3 & SR & QW & R3 & E3); [now apply images_count|].
  fold body in E3. rewrite E3. cbn [obind app v_header v_entries v_model].
  change (0 <? 0) with false. 
  destruct s3 as [bf p3]. unfold st_rest in R3. cbn [st_buf st_pos] in R3.
  destruct (st_read_app [c1; c2] rest 2 p3 bf eq_refl R3) as (s4 & E4 & _). rewrite E4.
  destruct (model_check order set_order (v_model v0) h) as [wm rm] eqn:EM. cbn [fst snd] in MC1, MC2. subst rm.
  cbn [owarn_if obind].
  rewrite checksum_spec by (cbn [v_entries]; eapply Forall2_storable; eauto). cbn [v_entries].
  rewrite (Forall2_images _ _ SR). fold body. cbn [olift obind].
  exists (w ++ wm), es'. split.
  - apply quietw_app; auto. destruct MC1; subst wm; [apply quietw_nil|intros x [<-|[]]; reflexivity].
  - split; auto. rewrite <- app_assoc. destruct (leqb _ _); cbn [negb app oret]; now rewrite ?app_nil_r.
Qed.
