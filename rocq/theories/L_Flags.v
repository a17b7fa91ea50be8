(** Lemmas for C06 (flag fields). *)
From Verif Require Import L_Base M_Data M_Flags S_Data L_Data.

Definition mkf (a : nat) (vals : list Z) : flags := combine (map Z.of_nat (seq a (length vals))) vals.

Lemma mkf_cons a v vals : mkf a (v :: vals) = (Z.of_nat a, v) :: mkf (S a) vals.
Proof. reflexivity. Qed.
Lemma mkf_length a vals : length (mkf a vals) = length vals.
Proof. revert a; induction vals; intros; [reflexivity|]. rewrite mkf_cons. simpl. now rewrite IHvals. Qed.
Lemma mkf_snd a vals : map snd (mkf a vals) = vals.
Proof. revert a; induction vals; intros; [reflexivity|]. rewrite mkf_cons. simpl. now rewrite IHvals. Qed.

Fixpoint upd (i : nat) (l : list Z) (v : Z) : list Z :=
  match l with
  | [] => []
  | x :: r => match i with O => v :: r | S j => x :: upd j r v end
  end.
Lemma upd_length i l v : length (upd i l v) = length l.
Proof. revert i; induction l; intros [|i]; simpl; auto. Qed.
Lemma nth_upd i l v j : (i < length l)%nat -> nth j (upd i l v) 0 = if Nat.eqb i j then v else nth j l 0.
Proof.
  revert i j; induction l; intros [|i] [|j] H; simpl in *; try lia; auto. apply IHl; lia.
Qed.
Lemma dset_mkf a vals i v : (i < length vals)%nat ->
  dset (mkf a vals) (Z.of_nat (a + i)) v = mkf a (upd i vals v).
Proof.
  revert a i; induction vals as [|x vals IH]; intros a i H; [simpl in H; lia|].
  rewrite mkf_cons. cbn [dset]. destruct i.
  - rewrite Nat.add_0_r, Z.eqb_refl. reflexivity.
  - destruct (Z.of_nat a =? Z.of_nat (a + S i)) eqn:E; [lia|]. cbn [upd]. rewrite mkf_cons.
    f_equal. replace (a + S i)%nat with (S a + i)%nat by lia. apply IH. simpl in H; lia.
Qed.
Lemma dget_mkf a vals i : (i < length vals)%nat ->
  dget (mkf a vals) (Z.of_nat (a + i)) = Some (nth i vals 0).
Proof.
  revert a i; induction vals as [|x vals IH]; intros a i H; [simpl in H; lia|].
  rewrite mkf_cons. cbn [dget]. destruct i.
  - rewrite Nat.add_0_r, Z.eqb_refl. reflexivity.
  - destruct (Z.of_nat a =? Z.of_nat (a + S i)) eqn:E; [lia|].
    replace (a + S i)%nat with (S a + i)%nat by lia. apply IH. simpl in H; lia.
Qed.

(** Overwriting a run of consecutive bits. *)
Lemma dupdate_mkf a vals bits : (a + length bits <= length vals)%nat ->
  dupdate (mkf 0 vals) (mkf a bits) = mkf 0 (firstn a vals ++ bits ++ skipn (a + length bits) vals).
Proof.
  revert a vals; induction bits as [|b bits IH]; intros a vals H.
  - simpl. rewrite Nat.add_0_r. now rewrite firstn_skipn.
  - rewrite mkf_cons. unfold dupdate. cbn [fold_left fst snd].
    change (Z.of_nat a) with (Z.of_nat (0 + a)). simpl length in H. rewrite dset_mkf by lia.
    change (dupdate (mkf 0 (upd a vals b)) (mkf (S a) bits) =
            mkf 0 (firstn a vals ++ (b :: bits) ++ skipn (a + length (b :: bits)) vals)).
    rewrite IH by (rewrite upd_length; lia). f_equal. simpl length.
    assert (E1 : forall a vals, (a < length vals)%nat -> firstn (S a) (upd a vals b) = firstn a vals ++ [b]).
    { clear. induction a; intros [|x vals] H; simpl in *; try lia; auto. f_equal. apply IHa; lia. }
    assert (E2 : forall a k vals, (a < k)%nat -> skipn k (upd a vals b) = skipn k vals).
    { clear. induction a; intros [|k] [|x vals] H; simpl in *; try lia; auto. apply IHa; lia. }
    rewrite E1, E2 by lia. rewrite <- app_assoc. cbn [app].
    replace (S a + length bits)%nat with (a + S (length bits))%nat by lia. reflexivity.
Qed.

Lemma zero_flags_mkf n : zero_flags n = mkf 0 (zeros n).
Proof.
  unfold zero_flags. generalize 0%nat as a. induction n; intros a; auto.
  simpl seq. simpl map. change (zeros (S n)) with (0 :: zeros n). rewrite mkf_cons. f_equal. apply IHn.
Qed.

Lemma fold_max_seq a n m : (forall k, In k (map Z.of_nat (seq a n)) -> m <= k) -> 
  fold_left Z.max (map Z.of_nat (seq a n)) m = if (n =? 0)%nat then m else Z.of_nat (a + n - 1).
Proof.
  revert a m; induction n; intros a m H; auto. simpl seq. simpl map. cbn [fold_left Nat.eqb].
  rewrite IHn.
  - specialize (H (Z.of_nat a) ltac:(simpl; auto)). destruct n; cbn [Nat.eqb]; lia.
  - intros k Hk. apply in_map_iff in Hk. destruct Hk as (j & <- & Hj). apply in_seq in Hj.
    specialize (H (Z.of_nat a) ltac:(simpl; auto)). lia.
Qed.
Lemma flags_width_mkf bits : bits <> [] ->
  flags_width (mkf 0 bits) = (zlen bits + 7) / 8 * 8.
Proof.
  intros H. destruct bits as [|b bits]; [congruence|]. unfold flags_width. rewrite mkf_cons.
  assert (map fst (mkf 1 bits) = map Z.of_nat (seq 1 (length bits))) as ->.
  { generalize 1%nat. clear. induction bits; intros; [reflexivity|]. rewrite mkf_cons. simpl. now rewrite IHbits. }
  rewrite fold_max_seq.
  - rewrite zlen_cons. unfold zlen. destruct (length bits =? 0)%nat eqn:E; do 2 f_equal.
    + apply Nat.eqb_eq in E. lia.
    + apply Nat.eqb_neq in E. lia.
  - intros k Hk. apply in_map_iff in Hk. destruct Hk as (j & <- & Hj). lia.
Qed.

Lemma flags_init_mkf bits W : bits <> [] -> Forall is_bit bits ->
  Z.of_nat W = (zlen bits + 7) / 8 * 8 ->
  flags_init (Some (mkf 0 bits)) 8 = mkf 0 (bits ++ zeros (W - length bits)).
Proof.
  intros Hn Hb HW. unfold flags_init. rewrite flags_width_mkf by auto. rewrite <- HW, Nat2Z.id.
  rewrite zero_flags_mkf. rewrite dupdate_mkf.
  - simpl firstn. simpl app. simpl Nat.add.
    assert (skipn (length bits) (zeros W) = zeros (W - length bits)) as ->.
    { clear. unfold zeros. revert W; induction (length bits); intros W; [now rewrite Nat.sub_0_r|].
      destruct W; auto. simpl. apply IHn. }
    assert (G : forall l a, Forall is_bit l -> map (fun p : Z * Z => (fst p, snd p mod 2)) (mkf a l) = mkf a l).
    { clear. intros l. induction l; intros a0 H; auto. rewrite mkf_cons. simpl. inversion H; subst.
      rewrite IHl by auto. do 2 f_equal. destruct H2; subst; reflexivity. }
    apply G. apply Forall_app. split; auto. apply Forall_forall. intros x Hx. apply repeat_spec in Hx. now left.
  - rewrite zeros_length. unfold zlen in HW. lia.
Qed.

Lemma flags_int_mkf bits : bits <> [] -> Forall is_bit bits -> flags_int (mkf 0 bits) = Ok (bits_int bits).
Proof.
  intros Hn Hb. unfold flags_int.
  assert (G : forall l : flags, Forall is_bit (map snd l) ->
             concat (map (fun p => str_of_int (snd p)) l) = map char_of_digit (map snd l)).
  { induction l as [|[k v] l IH]; intros H; auto. simpl in *. inversion H; subst.
    rewrite IH by auto. destruct H2 as [-> | ->]; reflexivity. }
  rewrite G by (rewrite map_rev, mkf_snd; now apply Forall_rev).
  rewrite map_rev, mkf_snd. rewrite parse_int_chars.
  - f_equal. clear. induction bits; auto. simpl rev. rewrite fold_left_app. simpl. rewrite IHbits. lia.
  - apply Forall_rev. eapply Forall_impl; [|exact Hb]. unfold is_bit, is_digit. intros; lia.
  - intros E. apply (f_equal (@rev Z)) in E. rewrite rev_involutive in E. auto.
  - right. apply Forall_rev. eapply Forall_impl; [|exact Hb]. unfold is_bit. intros; simpl; lia.
Qed.

Lemma flags_set_mkf bits k : length bits = (8 * k)%nat -> (0 < k)%nat -> Forall is_bit bits ->
  flags_set (mkf 0 bits) = Ok (le_bytes k (bits_int bits)).
Proof.
  intros Hl Hk Hb. unfold flags_set. rewrite flags_int_mkf; auto.
  2:{ intros ->. simpl in Hl. lia. }
  cbn [rbind]. rewrite mkf_length, Hl. replace (8 * k / 8)%nat with k.
  2:{ rewrite Nat.mul_comm, Nat.div_mul; lia. }
  unfold to_bytes_le. assert (fits k (bits_int bits) = true) as ->; auto.
  apply fits_spec. pose proof (bits_int_bound bits Hb) as B. rewrite Hl in B.
  replace (256 ^ Z.of_nat k) with (2 ^ Z.of_nat (8 * k)); auto.
  rewrite Nat2Z.inj_mul, Z.pow_mul_r by lia. reflexivity.
Qed.

Lemma lsb_bits_app_zeros n W v : 0 <= v < 2 ^ Z.of_nat n -> (n <= W)%nat ->
  lsb_bits n v ++ zeros (W - n) = lsb_bits W v.
Proof.
  revert W v; induction n; intros W v H HW.
  - change (2 ^ Z.of_nat 0) with 1 in H. assert (v = 0) by lia. subst. simpl. rewrite Nat.sub_0_r.
    clear. induction W; auto. cbn [lsb_bits]. change (zeros (S W)) with (0 :: zeros W).
    change (0 mod 2) with 0. change (0 / 2) with 0. now rewrite IHW.
  - destruct W; [lia|]. simpl. f_equal. apply IHn; [|lia].
    rewrite Nat2Z.inj_succ, Z.pow_succ_r in H by lia.
    split; [apply Z.div_pos; lia|apply Z.div_lt_upper_bound; lia].
Qed.

Lemma flags_get_mkf d k : wf_bytes d -> Z.of_nat k = Z.log2 (le_int d) / 8 + 1 ->
  flags_get d = mkf 0 (lsb_bits (8 * k) (le_int d)).
Proof.
  intros Hw Hk. unfold flags_get, binary_lsb.
  pose proof (le_int_nonneg d Hw) as H0. set (n := le_int d) in *. clearbody n.
  pose proof (Z.log2_nonneg n) as HL.
  set (m := Z.to_nat (Z.log2 n + 1)).
  change (combine (map Z.of_nat (seq 0 (length (lsb_bits m n)))) (lsb_bits m n)) with (mkf 0 (lsb_bits m n)).
  rewrite (flags_init_mkf _ (8 * k)).
  - rewrite lsb_bits_length. f_equal. apply lsb_bits_app_zeros; [|lia].
    split; auto. unfold m. rewrite Z2Nat.id by lia. destruct (Z.eq_dec n 0) as [->|]; [reflexivity|].
    apply Z.log2_spec; lia.
  - intros E. apply (f_equal (@length Z)) in E. rewrite lsb_bits_length in E. simpl in E. lia.
  - apply lsb_bits_bits.
  - unfold zlen. rewrite lsb_bits_length. lia.
Qed.

Lemma le_int_app_zeros l n : le_int (l ++ zeros n) = le_int l.
Proof.
  induction l; simpl; [|now rewrite IHl]. induction n; auto. simpl. unfold zeros in IHn. rewrite IHn. lia.
Qed.
Lemma le_int_rstrip0 l : le_int (rstrip0 l) = le_int l.
Proof. destruct (rstrip0_split l) as [n H]. rewrite H at 2. now rewrite le_int_app_zeros. Qed.
Lemma wf_rstrip0 l : wf_bytes l -> wf_bytes (rstrip0 l).
Proof. intros H. destruct (rstrip0_split l) as [n E]. rewrite E in H. now apply wf_bytes_app in H. Qed.
Lemma le_int_lower l : wf_bytes l -> l <> [] -> last l 1 <> 0 -> 256 ^ (zlen l - 1) <= le_int l.
Proof.
  intros Hw. induction Hw as [|b l Hb Hl IH]; intros Hn Hz; [congruence|].
  destruct l as [|c l].
  - simpl in *. unfold is_byte in *. change (256 ^ (zlen [b] - 1)) with 1. lia.
  - assert (256 ^ (zlen (c :: l) - 1) <= le_int (c :: l)) by (apply IH; [congruence|exact Hz]).
    rewrite (zlen_cons b). replace (1 + zlen (c :: l) - 1) with (1 + (zlen (c :: l) - 1)) by lia.
    rewrite Z.pow_add_r by (pose proof (zlen_nonneg l); try rewrite zlen_cons; lia).
    change (le_int (b :: c :: l)) with (b + 256 * le_int (c :: l)). unfold is_byte in Hb. lia.
Qed.

(** The general round trip: the width that comes back is the number of
    significant bytes (at least one). *)
Lemma flags_roundtrip d : wf_bytes d ->
  flags_set (flags_get d) = Ok (match rstrip0 d with [] => [0] | e => e end).
Proof.
  intros Hw. pose proof (le_int_nonneg d Hw) as H0.
  assert (Hk : exists k, Z.of_nat k = Z.log2 (le_int d) / 8 + 1).
  { exists (Z.to_nat (Z.log2 (le_int d) / 8 + 1)). pose proof (Z.log2_nonneg (le_int d)). lia. }
  destruct Hk as [k Hk]. pose proof (Z.log2_nonneg (le_int d)) as HL.
  rewrite (flags_get_mkf d k) by auto.
  rewrite (flags_set_mkf _ k); [|now rewrite lsb_bits_length|lia|apply lsb_bits_bits].
  rewrite bits_int_lsb_bits. f_equal.
  destruct (rstrip0 d) as [|b e] eqn:E.
  - assert (le_int d = 0) as En. { rewrite <- le_int_rstrip0, E. reflexivity. }
    rewrite En in *. change (Z.log2 0) with 0 in *. assert (k = 1%nat) by lia. subst. reflexivity.
  - pose proof (le_int_rstrip0 d) as ER. pose proof (wf_rstrip0 d Hw) as HR.
    assert (HZ : last (rstrip0 d) 1 <> 0). { apply rstrip0_last; [congruence|apply rstrip0_idem]. }
    rewrite E in *. rewrite <- ER in *.
    pose proof (le_int_lower (b :: e) HR ltac:(congruence) HZ) as Lo.
    pose proof (le_int_bound (b :: e) HR) as Hi.
    set (n := le_int (b :: e)) in *. set (len := length (b :: e)) in *.
    assert (Hlen : zlen (b :: e) = Z.of_nat len) by reflexivity. rewrite Hlen in Lo.
    assert (Hpos : (0 < len)%nat) by (unfold len; simpl; lia).
    change 256 with (2 ^ 8) in Lo, Hi. rewrite <- Z.pow_mul_r in Lo, Hi by lia.
    assert (0 < 2 ^ (8 * (Z.of_nat len - 1))) by (apply Z.pow_pos_nonneg; lia).
    assert (8 * (Z.of_nat len - 1) <= Z.log2 n) by (apply Z.log2_le_pow2; lia).
    assert (Z.log2 n < 8 * Z.of_nat len) by (apply Z.log2_lt_pow2; lia).
    assert (k = len) by lia. subst k.
    rewrite Z.mod_small.
    + apply le_bytes_le_int. exact HR.
    + split; [lia|]. rewrite Nat2Z.inj_mul. exact Hi.
Qed.

Lemma rstrip0_single b : is_byte b -> match rstrip0 [b] with [] => [0] | e => e end = [b].
Proof. intros H. simpl. destruct (b =? 0) eqn:E; auto. f_equal. lia. Qed.

Lemma flags_get_byte b : is_byte b -> flags_get [b] = mkf 0 (lsb_bits 8 b).
Proof.
  intros H. rewrite (flags_get_mkf [b] 1).
  - simpl le_int. replace (b + 256 * 0) with b by lia. reflexivity.
  - constructor; auto; constructor.
  - simpl le_int. replace (b + 256 * 0) with b by lia. unfold is_byte in H.
    assert (Z.log2 b < 8). { destruct (Z.eq_dec b 0) as [->|]; [reflexivity|]. apply Z.log2_lt_pow2; lia. }
    pose proof (Z.log2_nonneg b). lia.
Qed.

Definition bit_key (p : Z * Z) : Prop := 0 <= fst p < 8.
Definition bit_val (p : Z * Z) : Prop := snd p = 0 \/ snd p = 1.

Lemma flags_update_bits vals g : length vals = 8%nat -> Forall is_bit vals ->
  Forall bit_key g -> Forall bit_val g ->
  exists vals', flags_ior (mkf 0 vals) g = mkf 0 vals' /\ length vals' = 8%nat /\ Forall is_bit vals' /\
    forall i, (i < 8)%nat -> (nth i vals' 0 =? 1) = last_assigned g (Z.of_nat i) (nth i vals 0 =? 1).
Proof.
  unfold flags_ior, dupdate. revert vals. induction g as [|[k v] g IH]; intros vals Hl Hb Hk Hv.
  - exists vals. auto.
  - inversion Hk; inversion Hv; subst. cbn [fold_left fst snd]. unfold bit_key, bit_val in H1, H5. simpl in H1, H5.
    replace k with (Z.of_nat (0 + Z.to_nat k)) by lia. rewrite dset_mkf by lia.
    destruct (IH (upd (Z.to_nat k) vals v)) as (vals' & E & L & B & N); auto.
    + now rewrite upd_length.
    + apply Forall_forall. intros x Hx. apply (In_nth _ _ 0) in Hx. destruct Hx as (j & Hj & <-).
      rewrite upd_length in Hj. rewrite nth_upd by lia. destruct (Nat.eqb (Z.to_nat k) j); [unfold is_bit; lia|].
      rewrite Forall_forall in Hb. apply Hb. apply nth_In. auto.
    + exists vals'. repeat split; auto. intros i Hi. rewrite N by auto. cbn [last_assigned]. f_equal.
      rewrite nth_upd by lia.
      replace (Z.of_nat (0 + Z.to_nat k)) with k by lia.
      destruct (Nat.eqb (Z.to_nat k) i) eqn:E1.
      * apply Nat.eqb_eq in E1. destruct (k =? Z.of_nat i) eqn:E2; [|lia].
        destruct H5; subst; reflexivity.
      * apply Nat.eqb_neq in E1. destruct (k =? Z.of_nat i) eqn:E2; [lia|]. reflexivity.
Qed.

Lemma flags_update b g : is_byte b -> Forall bit_key g -> Forall bit_val g ->
  exists r, flags_set (flags_ior (flags_get [b]) g) = Ok [r] /\ is_byte r /\
    forall i, (i < 8)%nat -> Z.testbit r (Z.of_nat i) = last_assigned g (Z.of_nat i) (Z.testbit b (Z.of_nat i)).
Proof.
  intros Hb Hk Hv. rewrite flags_get_byte by auto.
  destruct (flags_update_bits (lsb_bits 8 b) g) as (vals & -> & L & B & N); auto using lsb_bits_length, lsb_bits_bits.
  rewrite (flags_set_mkf vals 1) by (auto; lia).
  pose proof (bits_int_bound vals B) as Bd. rewrite L in Bd. change (2 ^ Z.of_nat 8) with 256 in Bd.
  exists (bits_int vals). split; [cbn [le_bytes]; now rewrite Z.mod_small|]. split; [exact Bd|].
  intros i Hi. rewrite testbit_bits_int by auto. rewrite N by auto. f_equal.
  rewrite nth_lsb_bits by auto. destruct (Z.testbit b (Z.of_nat i)); reflexivity.
Qed.

Lemma flags_contains_spec b g : is_byte b -> Forall bit_key g ->
  exists r, flags_contains (flags_get [b]) g = Ok r /\
    (r = true <-> forall k v, In (k, v) g -> Z.testbit b k = negb (v =? 0)).
Proof.
  intros Hb Hk. rewrite flags_get_byte by auto. induction g as [|[k v] g IH].
  - exists true. split; auto. split; auto. intros _ k v [].
  - inversion Hk; subst. destruct (IH H2) as (r & E & Hr). cbn [flags_contains].
    unfold bit_key in H1. simpl in H1.
    replace k with (Z.of_nat (0 + Z.to_nat k)) by lia. rewrite dget_mkf by (rewrite lsb_bits_length; lia).
    rewrite nth_lsb_bits by lia. replace (Z.of_nat (0 + Z.to_nat k)) with k by lia.
    rewrite Z2Nat.id by lia.
    destruct (Z.b2z (Z.testbit b k) =? (if v =? 0 then 0 else 1)) eqn:E2.
    + exists r. split; auto. rewrite Hr. split.
      * intros H k' v' [Heq|Hin]; [|eauto]. injection Heq as <- <-.
        destruct (Z.testbit b k), (v =? 0); cbn in *; congruence.
      * intros H k' v' Hin. apply H. now right.
    + exists false. split; auto. split; [discriminate|]. intros H. exfalso.
      specialize (H k v (or_introl eq_refl)). rewrite H in E2. destruct (v =? 0); cbn in E2; discriminate.
Qed.
