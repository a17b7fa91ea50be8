(** Lemmas for C01-C07. *)
From Verif Require Import L_Base M_Data M_Numeric M_Flags S_Data.

(** ** C01 *)
Lemma nth_zeros n i : nth i (zeros n) 0 = 0.
Proof.
  destruct (Nat.lt_ge_cases i n).
  - apply (repeat_spec n 0). apply nth_In. now rewrite repeat_length.
  - apply nth_overflow. now rewrite zeros_length.
Qed.

Lemma nth_app_zeros v n i : nth i (v ++ zeros n) 0 = nth i v 0.
Proof.
  destruct (Nat.lt_ge_cases i (length v)).
  - now apply app_nth1.
  - rewrite app_nth2 by lia. rewrite nth_zeros. symmetry. now apply nth_overflow.
Qed.

Lemma nth_firstn_lt {A} (l : list A) n i d : (i < n)%nat -> nth i (firstn n l) d = nth i l d.
Proof.
  revert l i; induction n; intros l i H; [lia|].
  destruct l; destruct i; simpl; auto. apply IHn; lia.
Qed.

Lemma fit_section_fitted n v : exists s,
  fit_section (Some n) v = ((if Nat.ltb n (length v) then [WTooWide] else []), Ok s) /\ fitted n v s.
Proof.
  unfold fit_section, owarn_if, oret, obind. destruct (Nat.ltb n (length v)) eqn:E.
  - eexists; split; [reflexivity|]. apply Nat.ltb_lt in E.
    rewrite ljust_id by (rewrite firstn_length; lia). split.
    + rewrite firstn_length; lia.
    + intros i Hi. rewrite nth_firstn_lt by lia.
      destruct (Nat.ltb i (length v)) eqn:E2; auto.
      apply Nat.ltb_ge in E2. lia.
  - eexists; split; [reflexivity|]. apply Nat.ltb_ge in E. split.
    + apply ljust_length; lia.
    + intros i Hi. unfold ljust. rewrite nth_app_zeros.
      destruct (Nat.ltb i (length v)) eqn:E2; auto.
      apply Nat.ltb_ge in E2. apply nth_overflow; lia.
Qed.

Lemma fitted_unique n v s s' : fitted n v s -> fitted n v s' -> s = s'.
Proof.
  intros [H1 H2] [H3 H4]. apply (nth_ext _ _ 0 0); [lia|].
  intros i Hi. rewrite H2, H4 by lia. reflexivity.
Qed.
Lemma fitted_exact v s : fitted (length v) v s -> s = v.
Proof.
  intros [H1 H2]. apply (nth_ext _ _ 0 0); auto.
  intros i Hi. rewrite H2 by lia. destruct (Nat.ltb i (length v)) eqn:E; auto. apply Nat.ltb_ge in E; lia.
Qed.

(** ** C02 *)
Lemma resolves_slice start stop n lo hi : resolves start stop n lo hi ->
  slice_start start n = lo /\ slice_stop stop n = hi.
Proof.
  intros (H1 & H2 & H3 & H4 & _). unfold slice_start, slice_stop, norm_idx.
  split.
  - destruct start as [a|]; [|lia]. destruct (a <? 0) eqn:E; lia.
  - destruct stop as [a|]; [|lia]. destruct (a <? 0) eqn:E; lia.
Qed.

Lemma resolves_length target vw n lo hi :
  resolves (v_start vw) (v_stop vw) n lo hi -> target = None \/ target = Some n ->
  view_length target vw = Some (hi - lo) \/ view_length target vw = None.
Proof.
  intros H [-> | ->].
  - destruct H as (H1 & H2 & H3 & H4 & H5). unfold view_length.
    destruct (v_start vw) as [a|], (v_stop vw) as [b|].
    + destruct ((0 <=? a) && (b <? 0)) eqn:E; [now right|]. left. f_equal.
      destruct (a <? 0) eqn:Ea, (b <? 0) eqn:Eb; lia.
    + destruct ((0 <=? a) && true) eqn:E; [now right|]. left. f_equal.
      destruct (a <? 0) eqn:Ea; lia.
    + destruct ((0 <=? 0) && (b <? 0)) eqn:E; [now right|]. left. f_equal.
      destruct (b <? 0) eqn:Eb; lia.
    + simpl. now right.
  - left. unfold view_length. apply resolves_slice in H as Hs. destruct Hs as [-> ->].
    f_equal. destruct H as (_ & _ & H3 & _). lia.
Qed.

Lemma slice_set_patched l start stop lo hi v :
  resolves start stop (zlen l) lo hi -> zlen v = hi - lo ->
  patched l lo hi v (py_slice_set l start stop v).
Proof.
  intros H Hv. pose proof (resolves_slice _ _ _ _ _ H) as [E1 E2].
  destruct H as (_ & _ & H3 & H4 & _).
  unfold py_slice_set. rewrite E1, E2, Z.max_r by lia.
  unfold zlen in *. split.
  - rewrite !app_length, firstn_length, skipn_length. lia.
  - intros i. destruct ((lo <=? Z.of_nat i) && (Z.of_nat i <? hi)) eqn:E.
    + rewrite nth_error_app2 by (rewrite firstn_length; lia).
      rewrite firstn_length, Nat.min_l by lia.
      rewrite nth_error_app1 by lia. reflexivity.
    + destruct (Z.ltb (Z.of_nat i) lo) eqn:E3.
      * rewrite nth_error_app1 by (rewrite firstn_length; lia).
        apply nth_error_firstn_lt. lia.
      * rewrite nth_error_app2 by (rewrite firstn_length; lia).
        rewrite firstn_length, Nat.min_l by lia.
        rewrite nth_error_app2 by lia. rewrite nth_error_skipn. f_equal. lia.
Qed.

Lemma slice_get_patched l start stop lo hi v l' :
  resolves start stop (zlen l) lo hi -> zlen v = hi - lo -> patched l lo hi v l' ->
  py_slice l' start stop = v.
Proof.
  intros H Hv [Hl Hp]. assert (Hz : zlen l' = zlen l) by (unfold zlen; lia).
  rewrite <- Hz in H. pose proof (resolves_slice _ _ _ _ _ H) as [E1 E2].
  destruct H as (_ & _ & H3 & H4 & _).
  unfold py_slice. rewrite E1, E2. unfold zlen in *. apply nth_error_ext. intros i.
  destruct (Nat.lt_ge_cases i (length v)).
  - rewrite nth_error_firstn_lt by lia. rewrite nth_error_skipn, Hp.
    destruct ((lo <=? Z.of_nat (Z.to_nat lo + i)) && (Z.of_nat (Z.to_nat lo + i) <? hi)) eqn:E; [|lia].
    f_equal. lia.
  - rewrite nth_error_firstn_ge by lia. symmetry. apply nth_error_None. lia.
Qed.

Lemma patched_unique l lo hi v a b : patched l lo hi v a -> patched l lo hi v b -> a = b.
Proof. intros [_ H1] [_ H2]. apply nth_error_ext. intros i. now rewrite H1, H2. Qed.

(** A bounded view write. *)
Lemma view_set_frame target vw l lo hi v :
  resolves (v_start vw) (v_stop vw) (zlen l) lo hi -> target = None \/ target = Some (zlen l) ->
  zlen v = hi - lo ->
  exists l', view_set target vw (oret v) (Buf true l) = ([], Ok (Buf true l')) /\
             patched l lo hi v l' /\ view_get vw (Buf true l') = v.
Proof.
  intros H Ht Hv. exists (py_slice_set l (v_start vw) (v_stop vw) v).
  assert (P := slice_set_patched _ _ _ _ _ _ H Hv). split; [|split; auto].
  - unfold view_set, section_set_raw. rewrite obind_oret.
    destruct (resolves_length _ _ _ _ _ H Ht) as [E|E]; rewrite E; simpl option_map.
    + destruct (fit_section_fitted (Z.to_nat (hi - lo)) v) as (s & -> & Hs).
      destruct (Nat.ltb (Z.to_nat (hi - lo)) (length v)) eqn:E2.
      { unfold zlen in Hv. apply Nat.ltb_lt in E2. lia. }
      assert (s = v) as ->.
      { apply fitted_exact. replace (length v) with (Z.to_nat (hi - lo)); auto. unfold zlen in Hv; lia. }
      reflexivity.
    + reflexivity.
  - apply (slice_get_patched l _ _ lo hi); auto.
Qed.

Lemma view_set_fits target vw l lo hi v :
  resolves (v_start vw) (v_stop vw) (zlen l) lo hi -> target = None \/ target = Some (zlen l) ->
  view_length target vw <> None ->
  exists x l', view_set target vw (oret v) (Buf true l) =
               ((if hi - lo <? zlen v then [WTooWide] else []), Ok (Buf true l')) /\
             fitted (Z.to_nat (hi - lo)) v x /\ patched l lo hi x l'.
Proof.
  intros H Ht Hn.
  destruct (resolves_length _ _ _ _ _ H Ht) as [E|E]; [|contradiction].
  destruct (fit_section_fitted (Z.to_nat (hi - lo)) v) as (s & Es & Hs).
  exists s, (py_slice_set l (v_start vw) (v_stop vw) s).
  assert (Hz : zlen s = hi - lo).
  { destruct Hs as [Hs _]. destruct H as (_ & _ & ? & _). unfold zlen. lia. }
  split; [|split; auto using slice_set_patched].
  unfold view_set, section_set_raw. rewrite obind_oret, E. simpl option_map. rewrite Es.
  unfold obind, oret. simpl b_mut. cbv iota. rewrite app_nil_r. f_equal.
  destruct (hi - lo <? zlen v) eqn:E1, (Nat.ltb (Z.to_nat (hi - lo)) (length v)) eqn:E2; auto.
  - apply Nat.ltb_ge in E2. unfold zlen in *. lia.
  - apply Nat.ltb_lt in E2. unfold zlen in *. destruct H as (_ & _ & ? & _). lia.
Qed.

Lemma patched_commute l a b x c d y l1 l2 m1 m2 :
  0 <= a <= b -> 0 <= c <= d -> b <= c \/ d <= a ->
  patched l a b x l1 -> patched l1 c d y l2 ->
  patched l c d y m1 -> patched m1 a b x m2 -> l2 = m2.
Proof.
  intros Hab Hcd Hd [_ H1] [_ H2] [_ H3] [_ H4]. apply nth_error_ext. intros i.
  rewrite H2, H4, H1, H3.
  destruct ((c <=? Z.of_nat i) && (Z.of_nat i <? d)) eqn:E1;
  destruct ((a <=? Z.of_nat i) && (Z.of_nat i <? b)) eqn:E2; auto. lia.
Qed.

Lemma view_set_commute target v1 v2 l a b c d x y :
  resolves (v_start v1) (v_stop v1) (zlen l) a b -> resolves (v_start v2) (v_stop v2) (zlen l) c d ->
  target = None \/ target = Some (zlen l) ->
  zlen x = b - a -> zlen y = d - c -> b <= c \/ d <= a ->
  exists r, obind (view_set target v1 (oret x) (Buf true l)) (view_set target v2 (oret y)) = ([], Ok r) /\
            obind (view_set target v2 (oret y) (Buf true l)) (view_set target v1 (oret x)) = ([], Ok r) /\
            view_get v1 r = x /\ view_get v2 r = y.
Proof.
  intros H1 H2 Ht Hx Hy Hd.
  destruct (view_set_frame target v1 l a b x H1 Ht Hx) as (l1 & E1 & P1 & _).
  destruct (view_set_frame target v2 l c d y H2 Ht Hy) as (m1 & E2 & P2 & _).
  assert (L1 : zlen l1 = zlen l) by (destruct P1; unfold zlen; lia).
  assert (L2 : zlen m1 = zlen l) by (destruct P2; unfold zlen; lia).
  rewrite <- L1 in H2, Ht. destruct (view_set_frame target v2 l1 c d y H2 Ht Hy) as (l2 & E3 & P3 & G3).
  rewrite L1, <- L2 in Ht. rewrite <- L2 in H1.
  destruct (view_set_frame target v1 m1 a b x H1 Ht Hx) as (m2 & E4 & P4 & G4).
  assert (l2 = m2).
  { apply (patched_commute l a b x c d y l1 l2 m1 m2); auto.
    - destruct H1 as (_ & _ & ? & _); lia.
    - destruct H2 as (_ & _ & ? & _); lia. }
  subst m2. exists (Buf true l2). rewrite E1, E2. cbn [obind]. rewrite E3, E4. auto.
Qed.

(** ** C03 *)
Definition is_bit (x : Z) : Prop := x = 0 \/ x = 1.

Lemma lsb_bits_length n v : length (lsb_bits n v) = n.
Proof. revert v; induction n; intros; simpl; auto. Qed.
Lemma lsb_bits_bits n v : Forall is_bit (lsb_bits n v).
Proof.
  revert v; induction n; intros; simpl; constructor; auto.
  unfold is_bit. lia.
Qed.
Lemma nth_lsb_bits n v i : (i < n)%nat -> nth i (lsb_bits n v) 0 = Z.b2z (Z.testbit v (Z.of_nat i)).
Proof.
  revert v i; induction n; intros v i H; [lia|]. simpl. destruct i.
  - change (Z.of_nat 0) with 0. now rewrite Z.bit0_mod.
  - rewrite IHn by lia. rewrite Nat2Z.inj_succ. f_equal.
    rewrite <- Z.div2_div. rewrite Z.div2_spec, Z.shiftr_spec by lia. f_equal; lia.
Qed.
Lemma bits_int_bound l : Forall is_bit l -> 0 <= bits_int l < 2 ^ Z.of_nat (length l).
Proof.
  induction 1; [simpl; lia|]. simpl bits_int. simpl length.
  rewrite Nat2Z.inj_succ, Z.pow_succ_r by lia. unfold is_bit in *. lia.
Qed.
Lemma testbit_bits_int l i : Forall is_bit l ->
  Z.testbit (bits_int l) (Z.of_nat i) = (nth i l 0 =? 1).
Proof.
  intros H; revert i; induction H as [|b l Hb Hl IH]; intros i.
  - simpl. rewrite Z.testbit_0_l. now destruct i.
  - destruct i; simpl bits_int; simpl nth.
    + change (Z.of_nat 0) with 0. destruct Hb; subst.
      * rewrite Z.add_0_l. now rewrite Z.testbit_even_0.
      * rewrite Z.add_comm. now rewrite Z.testbit_odd_0.
    + rewrite Nat2Z.inj_succ. destruct Hb; subst.
      * rewrite Z.add_0_l. rewrite Z.testbit_even_succ by lia. apply IH.
      * rewrite Z.add_comm. rewrite Z.testbit_odd_succ by lia. apply IH.
Qed.
Lemma bits_int_lsb_bits n v : bits_int (lsb_bits n v) = v mod 2 ^ Z.of_nat n.
Proof.
  revert v; induction n; intros v; [simpl; now rewrite Z.mod_1_r|].
  simpl. rewrite IHn. rewrite Nat2Z.inj_succ, Z.pow_succ_r by lia.
  rewrite Z.rem_mul_r by lia. reflexivity.
Qed.

Lemma land_pow2 c n : 0 <= n -> Z.land c (2 ^ n) = Z.b2z (Z.testbit c n) * 2 ^ n.
Proof.
  intros Hn. apply Z.bits_inj'. intros m Hm. rewrite Z.land_spec, Z.pow2_bits_eqb by lia.
  destruct (Z.eqb_spec n m).
  - subst. rewrite andb_true_r. destruct (Z.testbit c m) eqn:E; cbn [Z.b2z].
    + rewrite Z.mul_1_l. now rewrite Z.pow2_bits_true.
    + rewrite Z.mul_0_l. now rewrite Z.testbit_0_l.
  - rewrite andb_false_r. destruct (Z.testbit c n); cbn [Z.b2z].
    + rewrite Z.mul_1_l. rewrite Z.pow2_bits_false; auto.
    + rewrite Z.mul_0_l. now rewrite Z.testbit_0_l.
Qed.

Lemma bits_place_spec c t a b k index bits :
  Forall is_bit bits -> (Nat.min b (index + k) - Nat.max a index <= length bits)%nat ->
  exists l, bits_place k index a b bits (Some (c :: t)) =
              Ok (2 ^ Z.of_nat index * bits_int l, skipn (Nat.min b (index + k) - Nat.max a index) bits) /\
            length l = k /\ Forall is_bit l /\
            forall j, (j < k)%nat ->
              nth j l 0 = if Nat.leb a (index + j) && Nat.ltb (index + j) b
                          then nth (index + j - Nat.max a index) bits 0
                          else Z.b2z (Z.testbit c (Z.of_nat (index + j))).
Proof.
  revert index bits; induction k as [|k IH]; intros index bits Hb Hlen.
  - exists []. split.
    + cbn [bits_place bits_int]. rewrite Z.mul_0_r. do 2 f_equal.
      replace (Nat.min b (index + 0) - Nat.max a index)%nat with 0%nat by lia. reflexivity.
    + repeat split; auto. intros; lia.
  - cbn [bits_place]. destruct (Nat.leb a index && Nat.ltb index b) eqn:E.
    + apply andb_true_iff in E as [E1 E2]. apply Nat.leb_le in E1. apply Nat.ltb_lt in E2.
      destruct bits as [|x bits]; [simpl in Hlen; lia|]. inversion Hb; subst.
      destruct (IH (S index) bits) as (l & Hl & Hlen2 & Hbits & Hnth); auto.
      { simpl in Hlen. lia. }
      rewrite Hl. cbn [rbind fst snd]. exists (x :: l). split.
      { simpl bits_int. rewrite Nat2Z.inj_succ, Z.pow_succ_r by lia. do 2 f_equal; [ring|].
        replace (Nat.min b (index + S k) - Nat.max a index)%nat
          with (S (Nat.min b (S index + k) - Nat.max a (S index))) by lia. reflexivity. }
      split; [simpl; lia|]. split; [now constructor|].
      intros [|j] Hj.
      * rewrite Nat.add_0_r. assert (Nat.leb a index = true) as -> by (apply Nat.leb_le; lia).
        assert (Nat.ltb index b = true) as -> by (apply Nat.ltb_lt; lia).
        replace (index - Nat.max a index)%nat with 0%nat by lia. reflexivity.
      * simpl nth at 1. rewrite Hnth by lia. replace (S index + j)%nat with (index + S j)%nat by lia.
        destruct (Nat.leb a (index + S j) && Nat.ltb (index + S j) b); auto.
        replace (index + S j - Nat.max a index)%nat with (S (index + S j - Nat.max a (S index))) by lia.
        reflexivity.
    + destruct (IH (S index) bits) as (l & Hl & Hlen2 & Hbits & Hnth); auto.
      { apply andb_false_iff in E. destruct E as [E|E]; [apply Nat.leb_gt in E | apply Nat.ltb_ge in E]; lia. }
      rewrite Hl. cbn [rbind fst snd]. exists (Z.b2z (Z.testbit c (Z.of_nat index)) :: l). split.
      { simpl bits_int. rewrite land_pow2 by lia. rewrite Nat2Z.inj_succ, Z.pow_succ_r by lia.
        do 2 f_equal; [ring|]. f_equal.
        apply andb_false_iff in E. destruct E as [E|E]; [apply Nat.leb_gt in E | apply Nat.ltb_ge in E]; lia. }
      split; [simpl; lia|]. split.
      { constructor; auto. unfold is_bit. destruct (Z.testbit c (Z.of_nat index)); cbn; lia. }
      intros [|j] Hj.
      * rewrite Nat.add_0_r, E. reflexivity.
      * simpl nth at 1. rewrite Hnth by lia. replace (S index + j)%nat with (index + S j)%nat by lia.
        destruct (Nat.leb a (index + S j) && Nat.ltb (index + S j) b) eqn:E3; auto.
        f_equal. apply andb_true_iff in E3 as [E3 E4]. apply Nat.leb_le in E3. apply Nat.ltb_lt in E4.
        apply andb_false_iff in E. destruct E as [E|E]; [apply Nat.leb_gt in E | apply Nat.ltb_ge in E]; lia.
Qed.

Lemma testbit_mod256 v i : (i < 8)%nat -> Z.testbit (v mod 256) (Z.of_nat i) = Z.testbit v (Z.of_nat i).
Proof. intros. change 256 with (2 ^ 8). apply Z.mod_pow2_bits_low. lia. Qed.

Lemma filter_ones_nil l : Forall is_bit l -> filter (fun x => x =? 1) l = [] <-> bits_int l = 0.
Proof.
  induction 1 as [|b l Hb Hl IH]; simpl; [tauto|].
  pose proof (bits_int_bound l Hl). destruct Hb; subst; simpl.
  - rewrite IH. lia.
  - split; [discriminate|lia].
Qed.
Lemma bits_int_skipn n l : Forall is_bit l -> bits_int l = bits_int (firstn n l) + 2 ^ Z.of_nat n * bits_int (skipn n l) \/ (length l < n)%nat.
Proof.
  intros H. destruct (Nat.le_gt_cases n (length l)); [left|right; lia].
  clear H. revert l H0; induction n; intros l H0; [simpl; change (2 ^ Z.of_nat 0) with 1; lia|].
  destruct l; [simpl in H0; lia|]. simpl. rewrite (IHn l) by (simpl in H0; lia).
  rewrite Nat2Z.inj_succ, Z.pow_succ_r by lia. ring.
Qed.

Lemma Forall_skipn {A} (P : A -> Prop) n l : Forall P l -> Forall P (skipn n l).
Proof. intros H. rewrite <- (firstn_skipn n l) in H. now apply Forall_app in H. Qed.
Lemma Forall_firstn {A} (P : A -> Prop) n l : Forall P l -> Forall P (firstn n l).
Proof. intros H. rewrite <- (firstn_skipn n l) in H. now apply Forall_app in H. Qed.

Lemma bits_set_spec a b v c : (a <= b <= 8)%nat -> is_byte c ->
  exists ws r, bits_set a b v (Some [c]) = (ws, Ok [r]) /\ field_written a b v c r /\
    (ws = [] <-> v mod 256 < 2 ^ Z.of_nat (b - a)) /\ Forall (eq WTooManyBits) ws.
Proof.
  intros Hab Hc. unfold bits_set.
  destruct (bits_place_spec c [] a b 8 0 (lsb_bits 8 (v mod 256))) as (l & E & Hlen & Hbits & Hnth).
  { apply lsb_bits_bits. } { rewrite lsb_bits_length. lia. }
  rewrite E. unfold olift. cbn [obind fst snd]. change (2 ^ Z.of_nat 0) with 1. rewrite Z.mul_1_l.
  pose proof (bits_int_bound l Hbits) as Hbound. rewrite Hlen in Hbound. change (2 ^ Z.of_nat 8) with 256 in Hbound.
  rewrite (byte_of_ok (bits_int l) Hbound). cbn [app].
  do 2 eexists. split; [reflexivity|]. split; [split; [exact Hbound|]|split].
  - intros i Hi. rewrite testbit_bits_int by auto. rewrite Hnth by lia. simpl Nat.add.
    destruct (Nat.leb a i && Nat.ltb i b) eqn:E2.
    + apply andb_true_iff in E2 as [E2 E3]. apply Nat.leb_le in E2. apply Nat.ltb_lt in E3.
      rewrite Nat.max_l by lia.
      rewrite nth_lsb_bits, testbit_mod256 by lia. destruct (Z.testbit v _); reflexivity.
    + destruct (Z.testbit c (Z.of_nat i)); reflexivity.
  - replace (Nat.min b (0 + 8) - Nat.max a 0)%nat with (b - a)%nat by lia.
    pose proof (lsb_bits_bits 8 (v mod 256)) as HB.
    destruct (bits_int_skipn (b - a) _ HB) as [Hs|Hs]; [|rewrite lsb_bits_length in Hs; lia].
    rewrite bits_int_lsb_bits in Hs. change (2 ^ Z.of_nat 8) with 256 in Hs. rewrite Z.mod_mod in Hs by lia.
    pose proof (bits_int_bound _ (Forall_firstn is_bit (b - a) _ HB)) as B1.
    pose proof (bits_int_bound _ (Forall_skipn is_bit (b - a) _ HB)) as B2.
    rewrite firstn_length, lsb_bits_length, Nat.min_l in B1 by lia.
    pose proof (filter_ones_nil _ (Forall_skipn is_bit (b - a) _ HB)) as F.
    assert (P : 0 < 2 ^ Z.of_nat (b - a)) by (apply Z.pow_pos_nonneg; lia).
    split; intros H.
    + apply map_eq_nil in H. apply F in H. rewrite H in Hs. lia.
    + destruct (filter (fun x => x =? 1) (skipn (b - a) (lsb_bits 8 (v mod 256)))) eqn:EF; auto.
      assert (bits_int (skipn (b - a) (lsb_bits 8 (v mod 256))) = 0) as Hz by nia.
      apply F in Hz. discriminate.
  - apply Forall_forall. intros w Hw. apply in_map_iff in Hw. destruct Hw as (? & <- & _). reflexivity.
Qed.

Lemma byte_ext r s : is_byte r -> is_byte s ->
  (forall i, (i < 8)%nat -> Z.testbit r (Z.of_nat i) = Z.testbit s (Z.of_nat i)) -> r = s.
Proof.
  intros Hr Hs H. rewrite <- (Z.mod_small r 256), <- (Z.mod_small s 256) by auto.
  apply Z.bits_inj'. intros n Hn. change 256 with (2 ^ 8).
  destruct (Z.lt_ge_cases n 8).
  - rewrite !Z.mod_pow2_bits_low by lia. specialize (H (Z.to_nat n)). rewrite Z2Nat.id in H by lia. apply H; lia.
  - rewrite !Z.mod_pow2_bits_high by lia. reflexivity.
Qed.

Lemma skipn_nth_bits n l : bits_int (skipn n l) = bits_int (skipn n l). Proof. reflexivity. Qed.

Lemma bits_get_value a b x : (a < b <= 8)%nat ->
  bits_get a b [x] = Ok ((x / 2 ^ Z.of_nat a) mod 2 ^ Z.of_nat (b - a)).
Proof.
  intros H. unfold bits_get.
  assert (S1 : forall n k v, (n <= k)%nat -> skipn n (lsb_bits k v) = lsb_bits (k - n) (v / 2 ^ Z.of_nat n)).
  { induction n; intros k v Hk. { simpl. rewrite Nat.sub_0_r. change (2 ^ Z.of_nat 0) with 1. now rewrite Z.div_1_r. }
    destruct k; [lia|]. simpl. rewrite IHn by lia. rewrite Nat2Z.inj_succ, Z.pow_succ_r by lia.
    rewrite Z.div_div by lia. reflexivity. }
  assert (F1 : forall n k v, (n <= k)%nat -> firstn n (lsb_bits k v) = lsb_bits n v).
  { induction n; intros k v Hk; auto. destruct k; [lia|]. simpl. f_equal. apply IHn; lia. }
  rewrite S1, F1 by lia. rewrite <- bits_int_lsb_bits.
  destruct (lsb_bits (b - a) _) eqn:E; auto.
  apply (f_equal (@length Z)) in E. rewrite lsb_bits_length in E. simpl in E. lia.
Qed.

Lemma bits_get_written a b v c r : (a < b <= 8)%nat -> field_written a b v c r ->
  bits_get a b [r] = Ok (v mod 2 ^ Z.of_nat (b - a)).
Proof.
  intros H [Hr Hf]. rewrite bits_get_value by auto. f_equal.
  apply Z.bits_inj'. intros n Hn. destruct (Z.lt_ge_cases n (Z.of_nat (b - a))).
  - rewrite !Z.mod_pow2_bits_low by lia. rewrite Z.div_pow2_bits by lia.
    specialize (Hf (a + Z.to_nat n)%nat ltac:(lia)).
    assert (Nat.leb a (a + Z.to_nat n) = true) as E1 by (apply Nat.leb_le; lia).
    assert (Nat.ltb (a + Z.to_nat n) b = true) as E2 by (apply Nat.ltb_lt; lia).
    rewrite E1, E2 in Hf. simpl andb in Hf. cbv iota in Hf.
    replace (Z.of_nat (a + Z.to_nat n)) with (n + Z.of_nat a) in Hf by lia. rewrite Hf. f_equal. lia.
  - rewrite !Z.mod_pow2_bits_high by lia. reflexivity.
Qed.

(** ** C04 *)
Lemma integer_roundtrip n v d : integer_set v (Some n) = Ok d -> integer_get d = v /\ length d = n /\ wf_bytes d.
Proof.
  unfold integer_set, to_bytes_le. destruct (fits n v) eqn:E; [|discriminate].
  intros [= <-]. apply fits_spec in E. split; [now apply le_int_le_bytes|].
  split; [apply le_bytes_length|apply le_bytes_wf].
Qed.
Lemma integer_refuse n v : integer_set v (Some n) = Err OverflowError <-> ~ (0 <= v < 256 ^ Z.of_nat n).
Proof.
  unfold integer_set, to_bytes_le. destruct (fits n v) eqn:E.
  - apply fits_spec in E. split; [discriminate|tauto].
  - split; auto. intros _ H. apply fits_spec in H. congruence.
Qed.
Lemma integer_accept n v : 0 <= v < 256 ^ Z.of_nat n -> exists d, integer_set v (Some n) = Ok d.
Proof.
  intros H. unfold integer_set, to_bytes_le. apply fits_spec in H. rewrite H. eauto.
Qed.

(** ** C05 *)
Lemma latin1_ok s : wf_bytes s -> latin1_encode s = Ok s.
Proof. induction 1; simpl; auto. apply is_byteb_spec in H. now rewrite H, IHForall. Qed.
Lemma latin1_err s : ~ wf_bytes s -> latin1_encode s = Err UnicodeEncodeError.
Proof.
  induction s as [|c s IH]; intros H. { exfalso. apply H. constructor. }
  simpl. destruct (is_byteb c) eqn:E; auto. rewrite IH; auto.
  intros Hs. apply H. constructor; auto. now apply is_byteb_spec.
Qed.
Lemma string_section_roundtrip n s : wf_bytes s -> (length s <= n)%nat -> last s 1 <> 0 ->
  exists d, section_set_raw (Some n) (olift (string_set s)) = ([], Ok d) /\ length d = n /\ string_get d = s.
Proof.
  intros Hw Hl Hz. unfold section_set_raw, string_set. rewrite latin1_ok by auto.
  unfold olift. rewrite obind_ret_l. unfold fit_section.
  assert (Nat.ltb n (length s) = false) as -> by (apply Nat.ltb_ge; lia).
  eexists; split; [reflexivity|]. split; [now apply ljust_length|].
  unfold string_get, ljust. rewrite rstrip0_app_zeros. now apply rstrip0_id.
Qed.
Lemma string_section_cut n s : wf_bytes s -> (n < length s)%nat -> 
  section_set_raw (Some n) (olift (string_set s)) = ([WTooWide], Ok (firstn n s)) .
Proof.
  intros Hw Hl. unfold section_set_raw, string_set. rewrite latin1_ok by auto.
  unfold olift. rewrite obind_ret_l. unfold fit_section.
  assert (Nat.ltb n (length s) = true) as -> by (apply Nat.ltb_lt; lia).
  cbn. rewrite ljust_id; auto. rewrite firstn_length; lia.
Qed.

(** ** C07 *)
Definition hexval (l : list Z) : Z := fold_left (fun v d => v * 16 + d) l 0.
Lemma digits_step n : 10 <= n -> digits n = digits (n / 10) ++ [n mod 10].
Proof.
  intros H. assert (G : forall f1 f2 m, 0 <= m < 2 ^ Z.of_nat f1 -> m < 2 ^ Z.of_nat f2 -> (0 < f1)%nat -> (0 < f2)%nat ->
    digits_fuel f1 m [] = digits_fuel f2 m []).
  { induction f1; intros f2 m H1 H2 H3 H4; [lia|]. destruct f2; [lia|]. cbn [digits_fuel].
    destruct (m <? 10) eqn:E; auto.
    rewrite Nat2Z.inj_succ, Z.pow_succ_r in H1, H2 by lia.
    rewrite digits_fuel_app, (digits_fuel_app f2). f_equal.
    apply IHf1; try (split; [apply Z.div_pos; lia|]); try (apply Z.div_lt_upper_bound; lia).
    - destruct f1; [change (2 ^ Z.of_nat 0) with 1 in H1; lia|lia].
    - destruct f2; [change (2 ^ Z.of_nat 0) with 1 in H2; lia|lia]. }
  unfold digits at 1. cbn [digits_fuel]. destruct (n <? 10) eqn:E; [lia|].
  rewrite digits_fuel_app. f_equal. unfold digits.
  pose proof (digits_fuel_ok n ltac:(lia)) as B. rewrite Nat2Z.inj_succ, Z.pow_succ_r in B by lia.
  pose proof (digits_fuel_ok (n / 10) ltac:(apply Z.div_pos; lia)) as B2.
  assert (n / 10 < 2 ^ Z.of_nat (Z.to_nat (Z.log2 n))) by (apply Z.div_lt_upper_bound; lia).
  apply G; [|lia| |lia].
  - split; [apply Z.div_pos; lia|auto].
  - destruct (Z.to_nat (Z.log2 n)) eqn:EL; [|lia].
    assert (1 <= n / 10) by (apply Z.div_le_lower_bound; lia). change (2 ^ Z.of_nat 0) with 1 in H0. lia.
Qed.
Lemma hexval_snoc l d : hexval (l ++ [d]) = hexval l * 16 + d.
Proof. unfold hexval. now rewrite fold_left_app. Qed.
Lemma hex_rec n : 0 <= n -> hexval (digits n) = 16 * hexval (digits (n / 10)) + n mod 10.
Proof.
  intros H. destruct (Z.lt_ge_cases n 10).
  - rewrite Z.div_small, Z.mod_small by lia. rewrite digits_0.
    assert (digits n = [n]) as ->. { unfold digits. cbn [digits_fuel]. destruct (n <? 10) eqn:E; [auto|lia]. }
    unfold hexval; simpl. lia.
  - rewrite (digits_step n) by lia. rewrite hexval_snoc. lia.
Qed.
Lemma hex_nonneg n : 0 <= n -> 0 <= hexval (digits n).
Proof.
  intros H. pose proof (digits_are_digits n H) as D. revert D. generalize (digits n) as l.
  intros l. induction l using rev_ind; intros D; [unfold hexval; simpl; lia|].
  rewrite hexval_snoc. apply Forall_app in D as [D1 D2]. inversion D2; subst.
  unfold is_digit in *. specialize (IHl D1). lia.
Qed.
Lemma hex_rec2 n : 0 <= n ->
  hexval (digits n) = 256 * hexval (digits (n / 100)) + (16 * (n / 10 mod 10) + n mod 10).
Proof.
  intros H. rewrite hex_rec by auto. rewrite (hex_rec (n / 10)) by (apply Z.div_pos; lia).
  rewrite Z.div_div by lia. change (10 * 10) with 100. lia.
Qed.
Lemma pow100_S n : 100 ^ Z.of_nat (S n) = 100 * 100 ^ Z.of_nat n.
Proof. rewrite Nat2Z.inj_succ, Z.pow_succ_r; lia. Qed.
Lemma hex_pos m : 1 <= m -> 1 <= hexval (digits m).
Proof.
  intros Hm. destruct (digits_head m Hm) as (d & r & E & Hd).
  pose proof (digits_are_digits m ltac:(lia)) as D. rewrite E in *. inversion D; subst.
  clear - Hd H2. induction r using rev_ind; [unfold hexval; simpl; lia|].
  rewrite app_comm_cons, hexval_snoc. apply Forall_app in H2 as [D1 D2]. inversion D2; subst.
  specialize (IHr D1). unfold is_digit in *. lia.
Qed.
Lemma hex_bound n k : 0 <= n -> (hexval (digits n) < 256 ^ Z.of_nat k <-> n < 100 ^ Z.of_nat k).
Proof.
  revert n; induction k; intros n H.
  - change (256 ^ Z.of_nat 0) with 1. change (100 ^ Z.of_nat 0) with 1.
    rewrite hex_rec2 by auto. pose proof (hex_nonneg (n / 100) ltac:(apply Z.div_pos; lia)).
    split; intros H1; [|assert (n = 0) by lia; subst; reflexivity].
    assert (hexval (digits (n / 100)) = 0) by lia.
    assert (n / 10 mod 10 = 0) by lia. assert (n mod 10 = 0) by lia.
    assert (H5 : n / 100 < 1).
    { destruct (Z.lt_ge_cases (n / 100) 1); auto. exfalso.
      pose proof (hex_pos (n / 100) ltac:(lia)). lia. }
    lia.
  - rewrite pow256_S, pow100_S. rewrite hex_rec2 by auto.
    specialize (IHk (n / 100) ltac:(apply Z.div_pos; lia)). split; intros H1.
    + assert (hexval (digits (n / 100)) < 256 ^ Z.of_nat k) by lia. apply IHk in H0. lia.
    + assert (n / 100 < 100 ^ Z.of_nat k) by (apply Z.div_lt_upper_bound; lia). apply IHk in H0. lia.
Qed.

Fixpoint bcd_le (n : nat) (v : Z) : bytes :=
  match n with O => [] | S m => 16 * (v / 10 mod 10) + v mod 10 :: bcd_le m (v / 100) end.
Lemma le_bytes_hex n v : 0 <= v -> le_bytes n (hexval (digits v)) = bcd_le n v.
Proof.
  revert v; induction n; intros v H; auto. cbn [le_bytes bcd_le]. rewrite hex_rec2 by auto.
  assert (E : 0 <= 16 * (v / 10 mod 10) + v mod 10 < 256) by lia.
  set (x := 16 * (v / 10 mod 10) + v mod 10) in *. clearbody x.
  assert ((256 * hexval (digits (v / 100)) + x) mod 256 = x) as -> by lia.
  assert ((256 * hexval (digits (v / 100)) + x) / 256 = hexval (digits (v / 100))) as -> by lia.
  rewrite IHn; auto. apply Z.div_pos; lia.
Qed.
Lemma parse16_str v : 0 <= v -> parse_int 16 (str_of_int v) = Ok (hexval (digits v)).
Proof.
  intros H. unfold str_of_int. destruct (v <? 0) eqn:E; [lia|].
  apply parse_int_chars; auto using digits_are_digits, digits_nonempty. left; lia.
Qed.
Lemma parse16_neg v : v < 0 -> parse_int 16 (str_of_int v) = Ok (- hexval (digits (- v))).
Proof.
  intros H. unfold str_of_int. destruct (v <? 0) eqn:E; [|lia].
  unfold parse_int. cbn [Z.eqb Pos.eqb].
  change (45 =? 45) with true. cbv beta iota zeta.
  rewrite parse_digits_chars; auto using digits_are_digits; try (left; lia).
  - pose proof (digits_nonempty (- v) ltac:(lia)). destruct (digits (- v)); [congruence|reflexivity].
  - apply digits_are_digits; lia.
Qed.

Lemma bcd_set_value v n : 0 <= v < 100 ^ Z.of_nat n -> bcd_set v (Some n) = Ok (rev (bcd_le n v)).
Proof.
  intros [H1 H2]. unfold bcd_set. rewrite parse16_str by auto. cbn [rbind].
  unfold to_bytes_be. assert (fits n (hexval (digits v)) = true) as ->.
  { apply fits_spec. split; [now apply hex_nonneg|now apply hex_bound]. }
  now rewrite le_bytes_hex.
Qed.
Lemma bcd_set_refuse v n : ~ (0 <= v < 100 ^ Z.of_nat n) -> bcd_set v (Some n) = Err OverflowError.
Proof.
  intros H. unfold bcd_set. destruct (Z.lt_ge_cases v 0).
  - rewrite parse16_neg by auto. cbn [rbind]. unfold to_bytes_be.
    pose proof (hex_pos (- v) ltac:(lia)).
    destruct (fits n (- hexval (digits (- v)))) eqn:E; auto. apply fits_spec in E. lia.
  - rewrite parse16_str by auto. cbn [rbind]. unfold to_bytes_be.
    destruct (fits n (hexval (digits v))) eqn:E; auto. apply fits_spec in E.
    rewrite hex_bound in E by auto. tauto.
Qed.

Lemma bcd_le_length n v : length (bcd_le n v) = n.
Proof. revert v; induction n; intros; simpl; auto. Qed.
Lemma bcd_le_wf n v : wf_bytes (bcd_le n v).
Proof. revert v; induction n; intros; simpl; constructor; [unfold is_byte; lia|apply IHn]. Qed.
Lemma bcd_get_rev l : bcd_get (rev l) = fold_right (fun b v => v * 100 + bcd_byte b) 0 l.
Proof. unfold bcd_get. rewrite <- (rev_involutive l) at 2. rewrite fold_left_rev_right. reflexivity. Qed.
Lemma bcd_get_bcd_le n v : 0 <= v < 100 ^ Z.of_nat n -> bcd_get (rev (bcd_le n v)) = v.
Proof.
  rewrite bcd_get_rev. revert v; induction n; intros v H.
  - change (100 ^ Z.of_nat 0) with 1 in H. simpl. lia.
  - rewrite pow100_S in H. cbn [bcd_le fold_right]. rewrite IHn.
    + unfold bcd_byte. assert ((16 * (v / 10 mod 10) + v mod 10) / 16 = v / 10 mod 10) as -> by lia.
      assert ((16 * (v / 10 mod 10) + v mod 10) mod 16 = v mod 10) as -> by lia. lia.
    + split; [apply Z.div_pos; lia|apply Z.div_lt_upper_bound; lia].
Qed.
Lemma bcd_le_packed n v d : d = rev (bcd_le n v) -> 0 <= v -> packed_decimal v d.
Proof.
  intros -> Hv i Hi. rewrite rev_length, bcd_le_length in Hi. rewrite rev_involutive.
  revert v Hv i Hi; induction n; intros v Hv i Hi; [lia|]. destruct i.
  - change (10 ^ (2 * Z.of_nat 0 + 1)) with 10. change (10 ^ (2 * Z.of_nat 0)) with 1.
    cbn [bcd_le nth]. rewrite Z.div_1_r. reflexivity.
  - cbn [bcd_le nth]. rewrite IHn; [|apply Z.div_pos; lia|lia].
    rewrite Nat2Z.inj_succ. replace (2 * Z.succ (Z.of_nat i) + 1) with (2 + (2 * Z.of_nat i + 1)) by lia.
    replace (2 * Z.succ (Z.of_nat i)) with (2 + 2 * Z.of_nat i) by lia.
    rewrite !Z.pow_add_r, !Z.div_div by (try apply Z.pow_nonneg; try apply Z.pow_pos_nonneg; lia).
    reflexivity.
Qed.

Lemma bcd_le_get l : Forall decimal_byte l ->
  bcd_le (length l) (fold_right (fun b v => v * 100 + bcd_byte b) 0 l) = l /\
  0 <= fold_right (fun b v => v * 100 + bcd_byte b) 0 l < 100 ^ Z.of_nat (length l).
Proof.
  induction 1 as [|b l Hb Hl IH]; [split; [reflexivity|simpl; lia]|].
  destruct IH as [IH1 IH2]. cbn [length fold_right bcd_le]. rewrite pow100_S.
  set (w := fold_right _ 0 l) in *. clearbody w.
  unfold decimal_byte in Hb. unfold bcd_byte. split.
  - f_equal.
    + set (t := b / 16) in *. assert (Eb : b = 16 * t + b mod 16) by lia.
      assert (0 <= t) by lia. assert (0 <= b mod 16) by lia.
      set (o := b mod 16) in *. clearbody t o.
      assert ((w * 100 + (10 * t + o)) / 10 mod 10 = t) as -> by lia.
      assert ((w * 100 + (10 * t + o)) mod 10 = o) as -> by lia. lia.
    + assert ((w * 100 + (10 * (b / 16) + b mod 16)) / 100 = w) as -> by lia. exact IH1.
  - lia.
Qed.
Lemma bcd_rewrite d : Forall decimal_byte d -> bcd_set (bcd_get d) (Some (length d)) = Ok d.
Proof.
  intros H. assert (Hr : Forall decimal_byte (rev d)) by now apply Forall_rev.
  destruct (bcd_le_get (rev d) Hr) as [H1 H2]. rewrite rev_length in *.
  rewrite <- bcd_get_rev, rev_involutive in H1, H2.
  rewrite bcd_set_value by auto. rewrite H1. now rewrite rev_involutive.
Qed.
Lemma bcd_rewrite_inv d x : wf_bytes d -> bcd_set x (Some (length d)) = Ok d -> Forall decimal_byte d.
Proof.
  intros Hw H. unfold bcd_set in H.
  destruct (Z.lt_ge_cases x 0) as [Hx|Hx].
  - rewrite parse16_neg in H by auto. cbn [rbind] in H. unfold to_bytes_be in H.
    pose proof (hex_pos (- x) ltac:(lia)).
    destruct (fits _ _) eqn:E in H; [|discriminate]. apply fits_spec in E. lia.
  - rewrite parse16_str in H by auto. cbn [rbind] in H. unfold to_bytes_be in H.
    destruct (fits _ _) in H; [|discriminate]. injection H as H. rewrite <- H.
    apply Forall_rev. rewrite le_bytes_hex by auto. generalize (length d) as n.
    intros n. revert x Hx H. clear. intros x Hx _. revert x Hx; induction n; intros x Hx; constructor.
    + unfold decimal_byte. lia.
    + apply IHn. apply Z.div_pos; lia.
Qed.
