(** Lemmas about the Python primitives of PyBase.v. *)
From Coq Require Export Lia ZifyBool ZifyNat ZifyN.
From Verif Require Export PyBase.
Ltac Zify.zify_post_hook ::= Z.div_mod_to_equations.

(** ** Results and outputs *)
Lemma rbind_ok {A B} (r : result A) (f : A -> result B) b :
  rbind r f = Ok b -> exists a, r = Ok a /\ f a = Ok b.
Proof. destruct r; simpl; intros H; [eauto | discriminate]. Qed.

Lemma obind_ok {A B} (m : out A) (f : A -> out B) w b :
  obind m f = (w, Ok b) -> exists w1 a w2, m = (w1, Ok a) /\ f a = (w2, Ok b) /\ w = w1 ++ w2.
Proof.
  destruct m as [w1 [a|e]]; simpl; intros H; [|discriminate].
  destruct (f a) as [w2 r] eqn:E. injection H as <- ->. eauto 7.
Qed.

Lemma obind_oret {A B} (a : A) (f : A -> out B) : obind (oret a) f = f a.
Proof. unfold oret; simpl. now destruct (f a). Qed.

Lemma obind_ret_l {A B} (a : A) (f : A -> out B) : obind ([], Ok a) f = f a.
Proof. simpl. now destruct (f a). Qed.

(** ** Lengths *)
Lemma zlen_nonneg {A} (l : list A) : 0 <= zlen l.
Proof. unfold zlen; lia. Qed.
Lemma zlen_app {A} (l r : list A) : zlen (l ++ r) = zlen l + zlen r.
Proof. unfold zlen; rewrite app_length; lia. Qed.
Lemma zlen_cons {A} (a : A) r : zlen (a :: r) = 1 + zlen r.
Proof. unfold zlen; simpl length; lia. Qed.
Lemma zlen_nil {A} : zlen (@nil A) = 0.
Proof. reflexivity. Qed.
Lemma to_nat_zlen {A} (l : list A) : Z.to_nat (zlen l) = length l.
Proof. unfold zlen; lia. Qed.

Lemma zeros_length n : length (zeros n) = n.
Proof. apply repeat_length. Qed.

(** ** Lists *)
Lemma nth_error_firstn_lt {A} (l : list A) n i :
  (i < n)%nat -> nth_error (firstn n l) i = nth_error l i.
Proof.
  revert l i; induction n; intros l i H; [lia|].
  destruct l; destruct i; simpl; auto. apply IHn; lia.
Qed.
Lemma nth_error_firstn_ge {A} (l : list A) n i :
  (n <= i)%nat -> nth_error (firstn n l) i = None.
Proof. intros; apply nth_error_None; rewrite firstn_length; lia. Qed.
Lemma nth_error_skipn {A} (l : list A) n i : nth_error (skipn n l) i = nth_error l (n + i).
Proof. revert l; induction n; intros l; simpl; auto. destruct l; auto. now destruct i. Qed.

Lemma nth_error_ext {A} (l m : list A) : (forall i, nth_error l i = nth_error m i) -> l = m.
Proof.
  revert m; induction l as [|a l IH]; intros [|b m] H; auto.
  - specialize (H 0%nat); discriminate.
  - specialize (H 0%nat); discriminate.
  - f_equal. { specialize (H 0%nat); now injection H. }
    apply IH; intros i. exact (H (S i)).
Qed.

Lemma firstn_app_exact {A} (a b : list A) n : length a = n -> firstn n (a ++ b) = a.
Proof.
  intros <-. rewrite firstn_app, Nat.sub_diag, firstn_all; simpl. apply app_nil_r.
Qed.
Lemma skipn_app_exact {A} (a b : list A) n : length a = n -> skipn n (a ++ b) = b.
Proof. intros <-. rewrite skipn_app, Nat.sub_diag, skipn_all; reflexivity. Qed.
Lemma firstn_ge {A} (a : list A) n : (length a <= n)%nat -> firstn n a = a.
Proof. apply firstn_all2. Qed.
Lemma skipn_ge {A} (a : list A) n : (length a <= n)%nat -> skipn n a = [].
Proof. apply skipn_all2. Qed.
Lemma skipn_skipn' {A} (l : list A) a b : skipn a (skipn b l) = skipn (b + a) l.
Proof. revert l; induction b; intros l; simpl; auto. destruct l; auto. now rewrite skipn_nil. Qed.
Lemma firstn_skipn_split {A} (l : list A) a b :
  (a <= b)%nat -> firstn b l = firstn a l ++ firstn (b - a) (skipn a l).
Proof.
  intros H. rewrite <- (firstn_skipn a l) at 1. rewrite firstn_app.
  rewrite firstn_firstn, Nat.min_r by lia.
  destruct (Nat.le_gt_cases a (length l)).
  - rewrite firstn_length, Nat.min_l by lia. reflexivity.
  - rewrite (skipn_ge l a) by lia. now rewrite !firstn_nil.
Qed.

(** ** Slices *)
Lemma py_slice_nn {A} (l : list A) a b :
  0 <= a -> a <= b -> b <= zlen l ->
  py_slice l (Some a) (Some b) = firstn (Z.to_nat (b - a)) (skipn (Z.to_nat a) l).
Proof.
  intros. unfold py_slice, slice_start, slice_stop, norm_idx.
  destruct (a <? 0) eqn:E1; [lia|]. destruct (b <? 0) eqn:E2; [lia|].
  rewrite !Z.min_l by lia. reflexivity.
Qed.
Lemma py_slice_set_nn {A} (l v : list A) a b :
  0 <= a -> a <= b -> b <= zlen l ->
  py_slice_set l (Some a) (Some b) v = firstn (Z.to_nat a) l ++ v ++ skipn (Z.to_nat b) l.
Proof.
  intros. unfold py_slice_set, slice_start, slice_stop, norm_idx.
  destruct (a <? 0) eqn:E1; [lia|]. destruct (b <? 0) eqn:E2; [lia|].
  rewrite !Z.min_l by lia. rewrite Z.max_r by lia. reflexivity.
Qed.
Lemma py_slice_from {A} (l : list A) a :
  0 <= a -> py_slice l (Some a) None = skipn (Z.to_nat a) l.
Proof.
  intros. unfold py_slice, slice_start, slice_stop, norm_idx.
  destruct (a <? 0) eqn:E1; [lia|].
  destruct (Z.le_gt_cases a (zlen l)).
  - rewrite Z.min_l by lia. apply firstn_ge. rewrite skipn_length. unfold zlen in *; lia.
  - rewrite Z.min_r by lia. rewrite (skipn_ge l (Z.to_nat a)) by (unfold zlen in *; lia).
    replace (zlen l - zlen l) with 0 by lia. reflexivity.
Qed.
Lemma py_slice_all {A} (l : list A) : py_slice l None None = l.
Proof.
  unfold py_slice, slice_start, slice_stop. rewrite Z.sub_0_r. simpl.
  unfold zlen. rewrite Nat2Z.id. apply firstn_all.
Qed.
Lemma py_slice_set_all {A} (l v : list A) : py_slice_set l None None v = v.
Proof.
  unfold py_slice_set, slice_start, slice_stop. simpl.
  rewrite Z.max_r by apply zlen_nonneg. rewrite to_nat_zlen, skipn_all. apply app_nil_r.
Qed.
Lemma py_slice_set_from {A} (l v : list A) a :
  0 <= a -> a <= zlen l -> py_slice_set l (Some a) None v = firstn (Z.to_nat a) l ++ v.
Proof.
  intros. unfold py_slice_set, slice_start, slice_stop, norm_idx.
  destruct (a <? 0) eqn:E1; [lia|]. rewrite Z.min_l by lia. rewrite Z.max_r by lia.
  rewrite to_nat_zlen, skipn_all, app_nil_r. reflexivity.
Qed.

(** ** ljust and rstrip *)
Lemma ljust_length n l : (length l <= n)%nat -> length (ljust n l) = n.
Proof. intros; unfold ljust; rewrite app_length, zeros_length; lia. Qed.
Lemma ljust_id n l : (n <= length l)%nat -> ljust n l = l.
Proof.
  intros; unfold ljust. replace (n - length l)%nat with 0%nat by lia. apply app_nil_r.
Qed.

Lemma rstrip0_zeros n : rstrip0 (zeros n) = [].
Proof. induction n; simpl; auto. unfold zeros in IHn. now rewrite IHn. Qed.
Lemma rstrip0_app_zeros l n : rstrip0 (l ++ zeros n) = rstrip0 l.
Proof.
  induction l; simpl; [apply rstrip0_zeros|]. now rewrite IHl.
Qed.
Lemma rstrip0_split l : exists n, l = rstrip0 l ++ zeros n.
Proof.
  induction l as [|a l [n IH]]; [now exists 0%nat|]. simpl.
  destruct (rstrip0 l) as [|b r] eqn:E.
  - destruct (a =? 0) eqn:Ea.
    + exists (S n). assert (a = 0) by lia. subst a. change (zeros (S n)) with (0 :: zeros n). simpl in *. f_equal. exact IH.
    + exists n. simpl. f_equal. exact IH.
  - exists n. rewrite IH at 1. reflexivity.
Qed.
Lemma rstrip0_id l : last l 1 <> 0 -> rstrip0 l = l.
Proof.
  induction l as [|a l IH]; auto. intros H. simpl.
  destruct l as [|b l].
  - simpl in *. destruct (a =? 0) eqn:E; [lia|reflexivity].
  - rewrite IH by (simpl in *; exact H). reflexivity.
Qed.
Lemma rstrip0_last l : l <> [] -> rstrip0 l = l -> last l 1 <> 0.
Proof.
  induction l as [|a l IH]; [congruence|]. intros _ H. simpl in H.
  destruct l as [|b l].
  - simpl in *. destruct (a =? 0) eqn:E; [discriminate|lia].
  - assert (E : rstrip0 (b :: l) = b :: l).
    { destruct (rstrip0 (b :: l)) as [|x y] eqn:E.
      - destruct (a =? 0); discriminate.
      - injection H as H1 H2. now rewrite H1, H2. }
    change (last (a :: b :: l) 1) with (last (b :: l) 1). apply IH; [congruence|exact E].
Qed.
Lemma rstrip0_idem l : rstrip0 (rstrip0 l) = rstrip0 l.
Proof.
  destruct (rstrip0_split l) as [n H]. rewrite H at 2. now rewrite rstrip0_app_zeros.
Qed.
Lemma rstrip0_length l : (length (rstrip0 l) <= length l)%nat.
Proof. destruct (rstrip0_split l) as [n H]. rewrite H at 2. rewrite app_length. lia. Qed.
Lemma rstrip0_ljust l : ljust (length l) (rstrip0 l) = l.
Proof.
  destruct (rstrip0_split l) as [n H]. unfold ljust.
  assert (length l = (length (rstrip0 l) + n)%nat).
  { rewrite H at 1. now rewrite app_length, zeros_length. }
  replace (length l - length (rstrip0 l))%nat with n by lia. now rewrite <- H.
Qed.

(** ** Little-endian integers *)
Lemma le_bytes_length n v : length (le_bytes n v) = n.
Proof. revert v; induction n; intros; simpl; auto. Qed.
Lemma le_bytes_wf n v : wf_bytes (le_bytes n v).
Proof.
  revert v; induction n; intros; simpl; constructor; [|apply IHn].
  unfold is_byte. pose proof (Z.mod_pos_bound v 256). lia.
Qed.
Lemma le_int_nonneg l : wf_bytes l -> 0 <= le_int l.
Proof. induction 1; simpl; unfold is_byte in *; lia. Qed.
Lemma pow256_S n : 256 ^ Z.of_nat (S n) = 256 * 256 ^ Z.of_nat n.
Proof. rewrite Nat2Z.inj_succ, Z.pow_succ_r; lia. Qed.
Lemma le_int_bound l : wf_bytes l -> le_int l < 256 ^ Z.of_nat (length l).
Proof.
  induction 1; [simpl; lia|]. simpl length. rewrite pow256_S. simpl le_int.
  unfold is_byte in *. nia.
Qed.
Lemma le_int_le_bytes n v : 0 <= v < 256 ^ Z.of_nat n -> le_int (le_bytes n v) = v.
Proof.
  revert v; induction n; intros v H; [simpl in *; lia|].
  rewrite pow256_S in H. simpl. rewrite IHn.
  - pose proof (Z.div_mod v 256). lia.
  - split; [apply Z.div_pos; lia|]. apply Z.div_lt_upper_bound; lia.
Qed.
Lemma le_bytes_le_int l : wf_bytes l -> le_bytes (length l) (le_int l) = l.
Proof.
  induction 1 as [|b l Hb Hl IH]; auto. simpl. unfold is_byte in Hb.
  assert (E : (b + 256 * le_int l) mod 256 = b).
  { replace (b + 256 * le_int l) with (b + le_int l * 256) by lia.
    rewrite Z.mod_add by lia. apply Z.mod_small; lia. }
  assert (E2 : (b + 256 * le_int l) / 256 = le_int l).
  { replace (b + 256 * le_int l) with (b + le_int l * 256) by lia.
    rewrite Z.div_add by lia. rewrite Z.div_small; lia. }
  now rewrite E, E2, IH.
Qed.
Lemma fits_spec n v : fits n v = true <-> 0 <= v < 256 ^ Z.of_nat n.
Proof. unfold fits. lia. Qed.
Lemma le_int_fits l : wf_bytes l -> fits (length l) (le_int l) = true.
Proof. intros. apply fits_spec. split; [now apply le_int_nonneg | now apply le_int_bound]. Qed.
Lemma le_bytes_inj n u v :
  0 <= u < 256 ^ Z.of_nat n -> 0 <= v < 256 ^ Z.of_nat n -> le_bytes n u = le_bytes n v -> u = v.
Proof. intros. rewrite <- (le_int_le_bytes n u), <- (le_int_le_bytes n v) by auto. congruence. Qed.

Lemma leqb_spec a b : leqb a b = true <-> a = b.
Proof.
  revert b; induction a as [|x a IH]; intros [|y b]; simpl; split; intros H; try congruence; try discriminate.
  - apply andb_true_iff in H as [H1 H2]. apply IH in H2. apply Z.eqb_eq in H1. congruence.
  - injection H as -> ->. rewrite Z.eqb_refl. now apply IH.
Qed.
Lemma leqb_refl a : leqb a a = true.
Proof. now apply leqb_spec. Qed.
Lemma leqb_false a b : leqb a b = false <-> a <> b.
Proof.
  destruct (leqb a b) eqn:E; split; intros H; try congruence.
  - apply leqb_spec in E. contradiction.
  - intros ->. now rewrite leqb_refl in E.
Qed.
Lemma is_byteb_spec b : is_byteb b = true <-> is_byte b.
Proof. unfold is_byteb, is_byte. lia. Qed.
Lemma wf_bytesb_spec l : wf_bytesb l = true <-> wf_bytes l.
Proof.
  unfold wf_bytesb, wf_bytes. rewrite forallb_forall, Forall_forall.
  split; intros H x Hx; apply is_byteb_spec; auto.
Qed.
Lemma wf_bytes_app a b : wf_bytes (a ++ b) <-> wf_bytes a /\ wf_bytes b.
Proof. apply Forall_app. Qed.
Lemma wf_zeros n : wf_bytes (zeros n).
Proof. apply Forall_forall. intros x H. apply repeat_spec in H. subst. unfold is_byte; lia. Qed.
Lemma wf_firstn n l : wf_bytes l -> wf_bytes (firstn n l).
Proof.
  intros H. rewrite <- (firstn_skipn n l) in H. now apply Forall_app in H.
Qed.
Lemma wf_skipn n l : wf_bytes l -> wf_bytes (skipn n l).
Proof.
  intros H. rewrite <- (firstn_skipn n l) in H. now apply Forall_app in H.
Qed.
Lemma wf_rev l : wf_bytes l -> wf_bytes (rev l).
Proof. apply Forall_rev. Qed.
Lemma wf_ljust n l : wf_bytes l -> wf_bytes (ljust n l).
Proof. intros; unfold ljust; apply wf_bytes_app; split; auto using wf_zeros. Qed.
Lemma byte_of_ok b : is_byte b -> byte_of b = Ok [b].
Proof. intros H. unfold byte_of. apply is_byteb_spec in H. now rewrite H. Qed.
Lemma bytes_of_ok l : wf_bytes l -> bytes_of l = Ok l.
Proof.
  induction 1; simpl; auto. apply is_byteb_spec in H. rewrite H, IHForall. reflexivity.
Qed.

(** ** Decimal printing and parsing *)
Lemma digits_fuel_app fuel n acc :
  digits_fuel fuel n acc = digits_fuel fuel n [] ++ acc.
Proof.
  revert n acc; induction fuel; intros; simpl; auto.
  destruct (n <? 10); auto.
  rewrite IHfuel, (IHfuel (n / 10) [n mod 10]). now rewrite <- app_assoc.
Qed.

Definition dec_value (l : list Z) : Z := fold_left (fun v d => v * 10 + d) l 0.
Lemma dec_value_app l r : dec_value (l ++ r) = dec_value l * 10 ^ zlen r + dec_value r.
Proof.
  unfold dec_value. rewrite fold_left_app. generalize (fold_left (fun v d => v * 10 + d) l 0) as a.
  induction r as [|x r IH] using rev_ind; intros a.
  - simpl. rewrite zlen_nil. lia.
  - rewrite !fold_left_app. simpl. rewrite IH, zlen_app. change (zlen [x]) with 1.
    rewrite Z.pow_add_r by (pose proof (zlen_nonneg r); lia). lia.
Qed.
Lemma dec_value_snoc l d : dec_value (l ++ [d]) = dec_value l * 10 + d.
Proof. unfold dec_value. now rewrite fold_left_app. Qed.
Lemma dec_value_cons d l : dec_value (d :: l) = d * 10 ^ zlen l + dec_value l.
Proof. change (d :: l) with ([d] ++ l). rewrite dec_value_app. reflexivity. Qed.

Definition is_digit (d : Z) : Prop := 0 <= d < 10.

Lemma digits_fuel_spec fuel n : 0 <= n < 2 ^ Z.of_nat fuel ->
  dec_value (digits_fuel fuel n []) = n /\ Forall is_digit (digits_fuel fuel n []).
Proof.
  revert n; induction fuel; intros n H.
  - simpl in *. assert (n = 0) by lia. subst. split; [reflexivity|constructor].
  - simpl digits_fuel. destruct (n <? 10) eqn:E.
    + split; [unfold dec_value; simpl; lia|]. constructor; [unfold is_digit; lia|constructor].
    + rewrite digits_fuel_app, dec_value_app.
      rewrite Nat2Z.inj_succ, Z.pow_succ_r in H by lia.
      destruct (IHfuel (n / 10)) as [H1 H2].
      { split; [apply Z.div_pos; lia|]. apply Z.div_lt_upper_bound; lia. }
      rewrite H1. change (zlen [n mod 10]) with 1. split.
      * unfold dec_value; simpl. pose proof (Z.div_mod n 10). lia.
      * apply Forall_app; split; auto. constructor; [|constructor].
        unfold is_digit. pose proof (Z.mod_pos_bound n 10). lia.
Qed.
Lemma digits_fuel_ok n : 0 <= n -> 0 <= n < 2 ^ Z.of_nat (S (Z.to_nat (Z.log2 n))).
Proof.
  intros H. split; auto. pose proof (Z.log2_nonneg n).
  rewrite Nat2Z.inj_succ, Z2Nat.id by lia.
  destruct (Z.eq_dec n 0) as [->|]. { reflexivity. }
  apply Z.log2_spec; lia.
Qed.
Lemma dec_value_digits n : 0 <= n -> dec_value (digits n) = n.
Proof. intros. apply digits_fuel_spec. now apply digits_fuel_ok. Qed.
Lemma digits_are_digits n : 0 <= n -> Forall is_digit (digits n).
Proof. intros. apply digits_fuel_spec. now apply digits_fuel_ok. Qed.

(** Leading digit: non-zero unless the number is below ten. *)
Lemma digits_fuel_head fuel n : 1 <= n < 2 ^ Z.of_nat fuel ->
  exists d r, digits_fuel fuel n [] = d :: r /\ 1 <= d < 10.
Proof.
  revert n; induction fuel; intros n H; [simpl in *; lia|].
  simpl. destruct (n <? 10) eqn:E. { exists n, []. split; auto. lia. }
  rewrite Nat2Z.inj_succ, Z.pow_succ_r in H by lia.
  destruct (IHfuel (n / 10)) as (d & r & H1 & H2).
  { split; [apply Z.div_le_lower_bound; lia | apply Z.div_lt_upper_bound; lia]. }
  rewrite digits_fuel_app, H1. exists d, (r ++ [n mod 10]). auto.
Qed.
Lemma digits_head n : 1 <= n -> exists d r, digits n = d :: r /\ 1 <= d < 10.
Proof. intros. apply digits_fuel_head. pose proof (digits_fuel_ok n). lia. Qed.
Lemma digits_0 : digits 0 = [0].
Proof. reflexivity. Qed.
Lemma digits_nonempty n : 0 <= n -> digits n <> [].
Proof.
  intros. destruct (Z.eq_dec n 0) as [->|]; [now rewrite digits_0|].
  destruct (digits_head n) as (d & r & E & _); [lia|]. now rewrite E.
Qed.

Lemma dec_value_bound l : Forall is_digit l -> 0 <= dec_value l < 10 ^ zlen l.
Proof.
  induction l as [|d l IH]; intros H; [split; [discriminate|reflexivity]|].
  inversion H; subst. rewrite dec_value_cons, zlen_cons.
  rewrite Z.pow_add_r by (pose proof (zlen_nonneg l); lia).
  specialize (IH H3). unfold is_digit in *. nia.
Qed.

(** Uniqueness: two digit lists without leading zero and the same value agree. *)
Lemma dec_value_inj l m : Forall is_digit l -> Forall is_digit m -> length l = length m ->
  dec_value l = dec_value m -> l = m.
Proof.
  revert m; induction l as [|a l IH]; intros [|b m] Hl Hm Hlen H; try discriminate; auto.
  inversion Hl; inversion Hm; subst. injection Hlen as Hlen.
  rewrite !dec_value_cons in H. assert (zlen l = zlen m) by (unfold zlen; lia).
  pose proof (dec_value_bound l H3). pose proof (dec_value_bound m H7).
  rewrite H0 in *. unfold is_digit in *.
  assert (a = b) by nia. subst. f_equal. apply IH; auto. lia.
Qed.
Lemma digits_length_bound n k : 0 <= n < 10 ^ Z.of_nat k -> (1 <= k)%nat -> (length (digits n) <= k)%nat.
Proof.
  intros H Hk. destruct (Z.eq_dec n 0) as [->|]; [rewrite digits_0; simpl; lia|].
  destruct (digits_head n) as (d & r & E & Hd); [lia|].
  pose proof (digits_are_digits n) as HD. pose proof (dec_value_digits n) as HV.
  rewrite E in *. rewrite dec_value_cons in HV. specialize (HD ltac:(lia)). specialize (HV ltac:(lia)).
  inversion HD; subst. pose proof (dec_value_bound r H3).
  destruct (Nat.le_gt_cases (length (d :: r)) k); auto. exfalso. simpl in H1.
  assert (10 ^ Z.of_nat k <= 10 ^ zlen r) by (apply Z.pow_le_mono_r; unfold zlen; lia).
  nia.
Qed.

Lemma digit_val_char d : is_digit d -> digit_val (char_of_digit d) = Some d.
Proof.
  unfold is_digit, digit_val, char_of_digit. intros.
  destruct ((48 <=? d + 48) && (d + 48 <=? 57)) eqn:E; [f_equal; lia|lia].
Qed.
Lemma parse_digits_chars base l acc prev :
  Forall is_digit l -> 10 <= base \/ Forall (fun d => d < base) l ->
  parse_digits base (map char_of_digit l) acc prev =
  (match l with
   | [] => if prev then Some acc else None
   | _ => Some (fold_left (fun v d => v * base + d) l acc)
   end).
Proof.
  revert acc prev; induction l as [|d l IH]; intros acc prev H Hb; [reflexivity|].
  inversion H; subst. simpl map. cbn [parse_digits].
  assert ((char_of_digit d =? 95) = false) as -> by (unfold char_of_digit, is_digit in *; lia).
  rewrite digit_val_char by auto.
  assert ((d <? base) = true) as ->.
  { destruct Hb as [Hb|Hb]; [unfold is_digit in *; lia | inversion Hb; lia]. }
  rewrite IH; auto. { destruct l; reflexivity. }
  destruct Hb as [Hb|Hb]; [auto|right; now inversion Hb].
Qed.
Lemma parse_int_chars base l : Forall is_digit l -> l <> [] -> 10 <= base \/ Forall (fun d => d < base) l ->
  parse_int base (map char_of_digit l) = Ok (fold_left (fun v d => v * base + d) l 0).
Proof.
  intros H Hn Hb. unfold parse_int. destruct l as [|d l]; [congruence|].
  assert (Hd : is_digit d) by now inversion H.
  cbn [map]. cbv beta iota zeta. assert ((char_of_digit d =? 45) = false) as -> by (unfold char_of_digit, is_digit in *; lia).
  assert ((char_of_digit d =? 43) = false) as -> by (unfold char_of_digit, is_digit in *; lia).
  change (char_of_digit d :: map char_of_digit l) with (map char_of_digit (d :: l)).
  now rewrite parse_digits_chars.
Qed.

Lemma parse_str_of_int n : 0 <= n -> parse_int 10 (str_of_int n) = Ok n.
Proof.
  intros H. unfold str_of_int. destruct (n <? 0) eqn:E; [lia|].
  rewrite parse_int_chars; auto using digits_are_digits, digits_nonempty; try (left; lia).
  f_equal. now apply dec_value_digits.
Qed.
