(** Lemmas about binary floating point numbers. *)
From Verif Require Import PyBase M_Data M_Numeric M_Class M_Var M_Real M_Complex M_Float L_Base S_Real L_Real L_Frac S_Float.

Lemma up_pos b z : 0 < b -> 0 < up b z.
Proof. intros H. unfold up. apply Z.pow_pos_nonneg; lia. Qed.
Lemma up_shift b X s : 0 < b -> 0 <= s -> 0 <= X + s -> up b X * b ^ s = b ^ (X + s) * up b (- X).
Proof. intros B S H. unfold up. rewrite <- !Z.pow_add_r by lia. f_equal. lia. Qed.
(** A fraction [N / D] equal to the decimal [A * 10 ^ y] compares as the decimal does. *)
Lemma sci_le_frac m X A y N D : 0 < D -> N * up 10 (- y) = A * up 10 y * D ->
  (sci_le m X A y <-> m * up 10 X * D <= N * up 10 (- X)).
Proof.
  intros HD E. set (s := Z.max (- X) (Z.max (- y) 0)). rewrite (scale_le _ _ _ _ (- s)) by lia.
  replace (X - - s) with (X + s) by lia. replace (y - - s) with (y + s) by lia.
  pose proof (up_shift 10 X s ltac:(lia) ltac:(lia) ltac:(lia)) as UX. pose proof (up_shift 10 y s ltac:(lia) ltac:(lia) ltac:(lia)) as UY.
  pose proof (up_pos 10 (- X) ltac:(lia)) as P1. pose proof (up_pos 10 (- y) ltac:(lia)) as P2. pose proof (pow10_pos s ltac:(lia)) as P3.
  set (a := up 10 (- X)) in *. set (b := up 10 (- y)) in *. set (p := 10 ^ s) in *. set (u := up 10 X) in *. set (v := up 10 y) in *.
  set (q := 10 ^ (X + s)) in *. set (r := 10 ^ (y + s)) in *. clearbody a b p u v q r.
  assert (E1 : m * q * (a * b * D) = m * u * D * (p * b)) by (replace (m * q * (a * b * D)) with (m * (q * a) * b * D) by ring; rewrite <- UX; ring).
  assert (E2 : A * r * (a * b * D) = N * a * (p * b)).
  { replace (A * r * (a * b * D)) with (A * (r * b) * a * D) by ring. rewrite <- UY. replace (A * (v * p) * a * D) with ((A * v * D) * (p * a)) by ring. rewrite <- E. ring. }
  assert (Q1 : 0 < a * b * D) by (apply Z.mul_pos_pos; [apply Z.mul_pos_pos|]; assumption). assert (Q2 : 0 < p * b) by now apply Z.mul_pos_pos.
  rewrite (Z.mul_le_mono_pos_r (m * q) (A * r) _ Q1), E1, E2, <- Z.mul_le_mono_pos_r by exact Q2. reflexivity.
Qed.
Lemma sci_eq_frac m X A y N D : 0 < D -> N * up 10 (- y) = A * up 10 y * D ->
  (sci_eq m X A y <-> m * up 10 X * D = N * up 10 (- X)).
Proof.
  intros HD E. set (s := Z.max (- X) (Z.max (- y) 0)). rewrite (scale_eq _ _ _ _ (- s)) by lia.
  replace (X - - s) with (X + s) by lia. replace (y - - s) with (y + s) by lia.
  pose proof (up_shift 10 X s ltac:(lia) ltac:(lia) ltac:(lia)) as UX. pose proof (up_shift 10 y s ltac:(lia) ltac:(lia) ltac:(lia)) as UY.
  pose proof (up_pos 10 (- X) ltac:(lia)) as P1. pose proof (up_pos 10 (- y) ltac:(lia)) as P2. pose proof (pow10_pos s ltac:(lia)) as P3.
  set (a := up 10 (- X)) in *. set (b := up 10 (- y)) in *. set (p := 10 ^ s) in *. set (u := up 10 X) in *. set (v := up 10 y) in *.
  set (q := 10 ^ (X + s)) in *. set (r := 10 ^ (y + s)) in *. clearbody a b p u v q r.
  assert (E1 : m * q * (a * b * D) = m * u * D * (p * b)) by (replace (m * q * (a * b * D)) with (m * (q * a) * b * D) by ring; rewrite <- UX; ring).
  assert (E2 : A * r * (a * b * D) = N * a * (p * b)).
  { replace (A * r * (a * b * D)) with (A * (r * b) * a * D) by ring. rewrite <- UY. replace (A * (v * p) * a * D) with ((A * v * D) * (p * a)) by ring. rewrite <- E. ring. }
  assert (Q1 : 0 < a * b * D) by (apply Z.mul_pos_pos; [apply Z.mul_pos_pos|]; assumption). assert (Q2 : 0 < p * b) by now apply Z.mul_pos_pos.
  rewrite <- (Z.mul_cancel_r (m * q) (A * r) (a * b * D)) by lia. rewrite E1, E2. apply Z.mul_cancel_r. lia.
Qed.
Lemma sci_lt_frac m X A y N D : 0 < D -> N * up 10 (- y) = A * up 10 y * D ->
  (sci_lt A y m X <-> N * up 10 (- X) < m * up 10 X * D).
Proof.
  intros HD E. pose proof (sci_le_frac m X A y N D HD E) as L.
  assert (C : sci_lt A y m X <-> ~ sci_le m X A y) by (unfold sci_lt, sci_le; rewrite (Z.min_comm y X); lia).
  rewrite C, L. lia.
Qed.

(** * From floats to decimals *)
Lemma pow2_divisor k d : 0 <= k -> 0 < d -> (d | 2 ^ k) -> exists j, 0 <= j <= k /\ d = 2 ^ j.
Proof.
  intros K D. revert d D. pattern k. apply natlike_ind; [| |exact K]; clear k K.
  - intros d D DV. exists 0. split; [lia|]. change (2 ^ 0) with 1 in *. apply Z.divide_pos_le in DV; lia.
  - intros k K IH d D DV. rewrite Z.pow_succ_r in DV by lia.
    destruct (Z.even d) eqn:EV.
    + apply Z.even_spec in EV as [d' ->]. destruct DV as [q E]. assert (E' : 2 ^ k = q * d') by lia.
      destruct (IH d' ltac:(lia)) as (j & J & ->); [now exists q|]. exists (j + 1). split; [lia|]. rewrite Z.pow_add_r by lia. change (2 ^ 1) with 2. lia.
    + assert (G : Z.gcd d 2 = 1).
      { assert (Z.gcd d 2 = 1 \/ Z.gcd d 2 = 2) as [E|E]; [|exact E|].
        - pose proof (Z.gcd_nonneg d 2). assert (Z.gcd d 2 <= 2) by (apply Z.divide_pos_le; [lia|apply Z.gcd_divide_r]).
          assert (Z.gcd d 2 <> 0) by (intros Q; apply Z.gcd_eq_0_r in Q; lia). lia.
        - destruct (Z.gcd_divide_l d 2) as [q Q]. rewrite E in Q. rewrite Q, Z.even_mul in EV. cbn in EV. rewrite orb_true_r in EV. discriminate. }
      apply Z.gauss in DV; [|exact G]. destruct (IH d D DV) as (j & J & ->). exists j. split; [lia|reflexivity].
Qed.
Lemma float_ratio_spec m e : 0 <= m -> exists n k, float_ratio m e = (n, k) /\ 0 <= k /\ 0 <= n /\ (n = 0 <-> m = 0) /\
  m * up 2 e * 2 ^ k = n * up 2 (- e).
Proof.
  intros M. unfold float_ratio. destruct (0 <=? e) eqn:E.
  - exists (m * 2 ^ e), 0. split; [reflexivity|]. split; [lia|]. assert (P : 0 < 2 ^ e) by (apply Z.pow_pos_nonneg; lia). split; [nia|]. split; [nia|].
    unfold up. replace (Z.max e 0) with e by lia. replace (Z.max (- e) 0) with 0 by lia. reflexivity.
  - cbv zeta. assert (P : 0 < 2 ^ (- e)) by (apply Z.pow_pos_nonneg; lia). set (g := Z.gcd m (2 ^ (- e))).
    assert (G : 0 < g). { unfold g. pose proof (Z.gcd_nonneg m (2 ^ (- e))). destruct (Z.eq_dec (Z.gcd m (2 ^ (- e))) 0) as [Q|]; [apply Z.gcd_eq_0_r in Q|]; lia. }
    destruct (Z.gcd_divide_l m (2 ^ (- e))) as [x X]. destruct (Z.gcd_divide_r m (2 ^ (- e))) as [y Y]. fold g in X, Y.
    assert (E1 : m / g = x) by (rewrite X; apply Z.div_mul; lia). assert (E2 : 2 ^ (- e) / g = y) by (rewrite Y; apply Z.div_mul; lia).
    assert (DY : (y | 2 ^ (- e))) by (exists g; lia). assert (PY : 0 < y) by nia.
    destruct (pow2_divisor (- e) y ltac:(lia) PY DY) as (j & J & EJ).
    exists x, j. rewrite E1, E2, EJ, Z.log2_pow2 by lia. split; [reflexivity|]. split; [lia|]. split; [nia|]. split; [nia|].
    unfold up. replace (Z.max e 0) with 0 by lia. replace (Z.max (- e) 0) with (- e) by lia. change (2 ^ 0) with 1. rewrite <- EJ, Y. rewrite X at 1. ring.
Qed.
Lemma five_two k : 0 <= k -> 5 ^ k * 2 ^ k = 10 ^ k.
Proof. intros K. rewrite <- Z.pow_mul_l. reflexivity. Qed.
(** The decimal of a float: not negative, zero only for zero, and of the same value. *)
Lemma dec_of_float_spec neg m e : 0 <= m -> exists A y, dec_of_float neg m e = Dec neg A y /\ 0 <= A /\ (A = 0 <-> m = 0) /\ y <= 0 /\
  m * up 2 e * up 10 (- y) = A * up 10 y * up 2 (- e).
Proof.
  intros M. destruct (float_ratio_spec m e M) as (n & k & R & K & N & Z0 & V). unfold dec_of_float. rewrite R.
  assert (P5 : 0 < 5 ^ k) by (apply Z.pow_pos_nonneg; lia).
  exists (n * 5 ^ k), (- k). split; [reflexivity|]. split; [nia|]. split; [nia|]. split; [lia|].
  unfold up at 2 3. replace (Z.max (- - k) 0) with k by lia. replace (Z.max (- k) 0) with 0 by lia. change (10 ^ 0) with 1.
  rewrite <- (five_two k K). replace (m * up 2 e * (5 ^ k * 2 ^ k)) with (m * up 2 e * 2 ^ k * 5 ^ k) by ring. rewrite V. ring.
Qed.
Lemma cut14_truncated m e A y M X : m * up 2 e * up 10 (- y) = A * up 10 y * up 2 (- e) -> (truncated14 A y M X <-> cut14 m e M X).
Proof.
  intros V. pose proof (up_pos 2 (- e) ltac:(lia)) as P. unfold truncated14, cut14, dec_le_bin, bin_lt_dec, dec_side, bin_side.
  rewrite (sci_le_frac M X A y _ _ P V), (sci_lt_frac (M + 1) X A y _ _ P V). reflexivity.
Qed.
Lemma cut14_unique m e M X M' X' : 0 <= m -> cut14 m e M X -> cut14 m e M' X' -> M = M' /\ X = X'.
Proof.
  intros H. destruct (dec_of_float_spec false m e H) as (A & y & _ & _ & _ & _ & V). rewrite <- !(cut14_truncated m e A y) by exact V. apply truncated14_unique.
Qed.
(** Loading a float into a decimal number. *)
Lemma float_load_spec neg m e c0 c1 r : 0 <= m -> length r = 7%nat -> is_byte c0 ->
  (m = 0 -> real_load (float_text (FNum neg m e)) (Buf true (c0 :: c1 :: r)) = (stored c0 neg 128 0, oret tt)) /\
  (m <> 0 -> exists M x, cut14 m e M (x - 141) /\
     real_load (float_text (FNum neg m e)) (Buf true (c0 :: c1 :: r)) =
     if is_byteb x then (stored c0 neg x M, oret tt) else (Buf true (c0 :: c1 :: mant M), oerr OverflowError)).
Proof.
  intros HM L B. destruct (dec_of_float_spec neg m e HM) as (A & y & D & HA & Z0 & _ & V).
  destruct (dec_str_literal (Dec neg A y) HA) as (l & W & T & Sq & LN & LC & LS). cbn [d_neg d_coef d_exp] in *.
  unfold float_text. rewrite D, T. destruct (real_load_spec l (lit_text l) c0 c1 r W Sq L B) as [R0 R1]. rewrite LC, LN, LS in *. split.
  - intros Q. apply R0. now apply Z0.
  - intros Q. destruct R1 as (M & x & TR & R); [intros Q'; apply Q; now apply Z0|]. exists M, x. split; [|exact R]. now apply (cut14_truncated m e A y M (x - 141) V).
Qed.

(** * From decimals to floats *)
Lemma up_add b x s : 0 < b -> 0 <= s -> up b (x + s) * up b (- x) = up b x * b ^ s * up b (- (x + s)).
Proof. intros B S. unfold up. rewrite <- !Z.pow_add_r by lia. f_equal. lia. Qed.
Lemma scale2_up e n d : scale2 e n d = (n * up 2 (- e), d * up 2 e).
Proof.
  unfold scale2, up. destruct (e <? 0) eqn:E; [replace (Z.max (- e) 0) with (- e) by lia; replace (Z.max e 0) with 0 by lia|replace (Z.max (- e) 0) with 0 by lia; replace (Z.max e 0) with e by lia];
    change (2 ^ 0) with 1; now rewrite Z.mul_1_r.
Qed.
Lemma half_even_bounds n d lo hi : 0 < d -> lo * d <= n < hi * d -> lo <= half_even n d <= hi.
Proof.
  intros D H. unfold half_even. pose proof (Z.div_mod n d ltac:(lia)). pose proof (Z.mod_pos_bound n d D).
  assert (lo <= n / d) by (apply Z.div_le_lower_bound; lia). assert (n / d < hi) by (apply Z.div_lt_upper_bound; lia).
  destruct (_ <? _); [lia|]. destruct (_ <? _); [lia|]. destruct (Z.even _); lia.
Qed.
(** The position of the leading bit of [n / d]. *)
Lemma leading_bit n d : 0 < n -> 0 < d -> let g := Z.log2 n - Z.log2 d in
  let l := if n * up 2 (- g) <? d * up 2 g then g - 1 else g in
  d * up 2 l <= n * up 2 (- l) /\ n * up 2 (- (l + 1)) < d * up 2 (l + 1).
Proof.
  intros N D g. destruct (Z.log2_spec n N) as [NA NB]. destruct (Z.log2_spec d D) as [DA DB]. rewrite <- Z.add_1_r in NB, DB.
  pose proof (Z.log2_nonneg n) as LN. pose proof (Z.log2_nonneg d) as LD. set (a := Z.log2 n) in *. set (b := Z.log2 d) in *.
  assert (HI : n * up 2 (- (g + 1)) < d * up 2 (g + 1)).
  { pose proof (up_shift 2 (g + 1) b ltac:(lia) ltac:(lia) ltac:(lia)) as U. replace (g + 1 + b) with (a + 1) in U by lia.
    pose proof (up_pos 2 (g + 1) ltac:(lia)). pose proof (up_pos 2 (- (g + 1)) ltac:(lia)). nia. }
  assert (LO : d * up 2 (g - 1) <= n * up 2 (- (g - 1))).
  { pose proof (up_shift 2 (g - 1) (b + 1) ltac:(lia) ltac:(lia) ltac:(lia)) as U. replace (g - 1 + (b + 1)) with a in U by lia.
    pose proof (up_pos 2 (g - 1) ltac:(lia)). pose proof (up_pos 2 (- (g - 1)) ltac:(lia)). nia. }
  cbv zeta. destruct (n * up 2 (- g) <? d * up 2 g) eqn:C.
  - split; [exact LO|]. replace (g - 1 + 1) with g by lia. lia.
  - split; [lia|exact HI].
Qed.
Lemma round_float_normal neg n d : 0 < n -> 0 < d -> n < d * 2 ^ 1000 -> d <= n * 2 ^ 1000 ->
  exists m e, round_float neg n d = FNum neg m e /\ 2 ^ 52 <= m <= 2 ^ 53 /\ 2 * Z.abs (m * up 2 e * d - n * up 2 (- e)) <= up 2 e * d.
Proof.
  intros N D R1 R2. pose proof (leading_bit n d N D) as L. cbv zeta in L. unfold round_float. replace (n =? 0) with false by lia. cbv zeta.
  set (g := Z.log2 n - Z.log2 d) in *. rewrite scale2_up. set (l := if n * up 2 (- g) <? d * up 2 g then g - 1 else g) in *. clearbody l. destruct L as [L1 L2].
  assert (B1 : l < 1000).
  { destruct (Z.lt_ge_cases l 1000) as [|G]; [assumption|exfalso]. unfold up in L1. replace (Z.max (- l) 0) with 0 in L1 by lia. replace (Z.max l 0) with l in L1 by lia. change (2 ^ 0) with 1 in L1.
    assert (2 ^ 1000 <= 2 ^ l) by (apply Z.pow_le_mono_r; lia). assert (d * 2 ^ 1000 <= d * 2 ^ l) by (apply Z.mul_le_mono_nonneg_l; lia). lia. }
  assert (B2 : - 1001 <= l).
  { destruct (Z.lt_ge_cases l (- 1001)) as [G|]; [exfalso|lia]. unfold up in L2. replace (Z.max (l + 1) 0) with 0 in L2 by lia. replace (Z.max (- (l + 1)) 0) with (- (l + 1)) in L2 by lia. change (2 ^ 0) with 1 in L2.
    assert (2 ^ 1000 <= 2 ^ (- (l + 1))) by (apply Z.pow_le_mono_r; lia). assert (n * 2 ^ 1000 <= n * 2 ^ (- (l + 1))) by (apply Z.mul_le_mono_nonneg_l; lia). lia. }
  clear R1 R2. replace (Z.max (l - 52) (-1074)) with (l - 52) by lia. set (e := l - 52). rewrite scale2_up.
  set (x := n * up 2 (- e)). set (y := d * up 2 e). pose proof (up_pos 2 e ltac:(lia)) as PE. assert (PY : 0 < y) by now apply Z.mul_pos_pos.
  assert (M1 : 2 ^ 52 * y <= x).
  { pose proof (up_add 2 e 52 ltac:(lia) ltac:(lia)) as U. replace (e + 52) with l in U by (unfold e; lia). pose proof (up_pos 2 (- l) ltac:(lia)) as P1. pose proof (up_pos 2 (- e) ltac:(lia)) as P2.
    apply (Z.mul_le_mono_pos_r _ _ (up 2 (- l)) P1). unfold x, y. replace (2 ^ 52 * (d * up 2 e) * up 2 (- l)) with (d * (up 2 e * 2 ^ 52 * up 2 (- l))) by ring. rewrite <- U.
    replace (d * (up 2 l * up 2 (- e))) with (d * up 2 l * up 2 (- e)) by ring. replace (n * up 2 (- e) * up 2 (- l)) with (n * up 2 (- l) * up 2 (- e)) by ring. now apply Z.mul_le_mono_pos_r. }
  assert (M2 : x < 2 ^ 53 * y).
  { pose proof (up_add 2 e 53 ltac:(lia) ltac:(lia)) as U. replace (e + 53) with (l + 1) in U by (unfold e; lia). pose proof (up_pos 2 (- (l + 1)) ltac:(lia)) as P1. pose proof (up_pos 2 (- e) ltac:(lia)) as P2.
    apply (Z.mul_lt_mono_pos_r (up 2 (- (l + 1))) _ _ P1). unfold x, y. replace (2 ^ 53 * (d * up 2 e) * up 2 (- (l + 1))) with (d * (up 2 e * 2 ^ 53 * up 2 (- (l + 1)))) by ring. rewrite <- U.
    replace (d * (up 2 (l + 1) * up 2 (- e))) with (d * up 2 (l + 1) * up 2 (- e)) by ring. replace (n * up 2 (- e) * up 2 (- (l + 1))) with (n * up 2 (- (l + 1)) * up 2 (- e)) by ring. now apply Z.mul_lt_mono_pos_r. }
  pose proof (half_even_bounds x y (2 ^ 52) (2 ^ 53) PY ltac:(lia)) as HB. pose proof (half_even_spec x y PY) as HS.
  exists (half_even x y), e. replace (971 <? e) with false by (unfold e; lia). replace (e =? 971) with false by (unfold e; lia). cbn [orb andb]. split; [reflexivity|]. split; [exact HB|].
  replace (up 2 e * d) with y by (unfold y; ring). replace (half_even x y * up 2 e * d - n * up 2 (- e)) with (- (x - half_even x y * y)) by (unfold x, y; ring). rewrite Z.abs_opp. exact HS.
Qed.
Lemma float_of_dec_up neg c k : float_of_dec (Dec neg c k) = round_float neg (c * up 10 k) (up 10 (- k)).
Proof.
  unfold float_of_dec, up. cbn [d_neg d_coef d_exp]. destruct (0 <=? k) eqn:K.
  - replace (Z.max k 0) with k by lia. replace (Z.max (- k) 0) with 0 by lia. reflexivity.
  - replace (Z.max k 0) with 0 by lia. replace (Z.max (- k) 0) with (- k) by lia. change (10 ^ 0) with 1. now rewrite Z.mul_1_r.
Qed.
(** The float of a stored number: full 53 bits, at most half a unit away. *)
Lemma float_of_dec_normal neg c k : 0 < c < 10 ^ 14 -> -150 <= k <= 120 -> exists m e, float_of_dec (Dec neg c k) = FNum neg m e /\
  2 ^ 52 <= m <= 2 ^ 53 /\ 2 * Z.abs (bin_side m e k - dec_side c k e) <= bin_side 1 e k.
Proof.
  intros C K. rewrite float_of_dec_up. pose proof (up_pos 10 k ltac:(lia)) as P1. pose proof (up_pos 10 (- k) ltac:(lia)) as P2.
  assert (U1 : up 10 k <= 10 ^ 120) by (unfold up; apply Z.pow_le_mono_r; lia). assert (U2 : up 10 (- k) <= 10 ^ 150) by (unfold up; apply Z.pow_le_mono_r; lia).
  assert (V1 : 10 ^ 14 * 10 ^ 120 < 2 ^ 1000) by reflexivity. assert (V2 : 10 ^ 150 < 2 ^ 1000) by reflexivity.
  destruct (round_float_normal neg (c * up 10 k) (up 10 (- k))) as (m & e & E & M & S); [nia|lia| | |].
  - clear V2 U2 K. set (T := 2 ^ 1000) in *. set (H := 10 ^ 120) in *. clearbody T H. nia.
  - clear V1 U1 K. set (T := 2 ^ 1000) in *. set (H := 10 ^ 150) in *. clearbody T H.
    assert (1 <= c * up 10 k) by nia. assert (1 * T <= c * up 10 k * T) by (apply Z.mul_le_mono_nonneg_r; lia). lia.
  - exists m, e. split; [exact E|]. split; [exact M|]. unfold bin_side, dec_side. rewrite Z.mul_1_l. exact S.
Qed.

(** The distance of a number of fourteen digits to its float is less than a ninetieth
    of a unit of the last digit. *)
Lemma float_close m e c k : 0 < c < 10 ^ 14 -> 2 ^ 52 <= m -> 2 * Z.abs (bin_side m e k - dec_side c k e) <= bin_side 1 e k ->
  90 * Z.abs (bin_side m e k - dec_side c k e) < dec_side 1 k e.
Proof.
  intros C M H. assert (B : bin_side m e k = m * bin_side 1 e k) by (unfold bin_side; ring). assert (D : dec_side c k e = c * dec_side 1 k e) by (unfold dec_side; ring).
  assert (PB : 0 < bin_side 1 e k) by (unfold bin_side; rewrite Z.mul_1_l; apply Z.mul_pos_pos; apply up_pos; lia).
  assert (PD : 0 < dec_side 1 k e) by (unfold dec_side; rewrite Z.mul_1_l; apply Z.mul_pos_pos; apply up_pos; lia).
  rewrite B, D in *. set (U := bin_side 1 e k) in *. set (u := dec_side 1 k e) in *. clearbody U u. clear B D.
  set (t := Z.abs (m * U - c * u)) in *. assert (T : m * U - c * u <= t) by lia. assert (T0 : 0 <= t) by lia. clearbody t.
  assert (X1 : 2 ^ 52 * U <= m * U) by (apply Z.mul_le_mono_nonneg_r; lia). assert (X2 : c * u <= (10 ^ 14 - 1) * u) by (apply Z.mul_le_mono_nonneg_r; lia). lia.
Qed.
(** Cutting the float back: the number itself if the float is not below, else one
    unit less. *)
Lemma cut_above m e c k : 10 ^ 13 <= c < 10 ^ 14 -> 90 * Z.abs (bin_side m e k - dec_side c k e) < dec_side 1 k e -> dec_le_bin c k m e -> cut14 m e c k.
Proof.
  intros C H L. split; [exact C|]. split; [exact L|]. unfold bin_lt_dec, dec_le_bin in *.
  assert (D : dec_side (c + 1) k e = dec_side c k e + dec_side 1 k e) by (unfold dec_side; ring). lia.
Qed.
Lemma cut_below m e c k : 10 ^ 13 <= c < 10 ^ 14 -> 90 * Z.abs (bin_side m e k - dec_side c k e) < dec_side 1 k e -> ~ dec_le_bin c k m e ->
  cut14 m e (snd (less14 (k + 141) c)) (fst (less14 (k + 141) c) - 141).
Proof.
  intros C H L. unfold dec_le_bin in L. unfold less14. destruct (Z.eqb_spec c (10 ^ 13)) as [->|N]; cbn [fst snd].
  - replace (k + 141 - 1 - 141) with (k - 1) by lia.
    pose proof (up_add 10 (k - 1) 1 ltac:(lia) ltac:(lia)) as U. replace (k - 1 + 1) with k in U by lia. change (10 ^ 1) with 10 in U.
    pose proof (up_pos 10 k ltac:(lia)) as P1. pose proof (up_pos 10 (- k) ltac:(lia)) as P2. pose proof (up_pos 10 (k - 1) ltac:(lia)) as P3. pose proof (up_pos 10 (- (k - 1)) ltac:(lia)) as P4.
    pose proof (up_pos 2 (- e) ltac:(lia)) as P5. unfold cut14, dec_le_bin, bin_lt_dec, bin_side, dec_side in *.
    set (a := up 10 k) in *. set (b := up 10 (- k)) in *. set (a' := up 10 (k - 1)) in *. set (b' := up 10 (- (k - 1))) in *. set (B := m * up 2 e) in *. set (w := up 2 (- e)) in *. clearbody a b a' b' B w.
    split; [lia|].
    assert (Q : 10 * a' * b * w = a * b' * w) by (f_equal; lia).
    split.
    + apply (Z.mul_le_mono_pos_r _ _ (10 * b)); [lia|]. replace ((10 ^ 14 - 1) * a' * w * (10 * b)) with ((10 ^ 14 - 1) * (10 * a' * b * w)) by ring. rewrite Q.
      replace ((10 ^ 14 - 1) * (a * b' * w)) with ((10 ^ 14 - 1) * (a * w) * b') by ring. replace (B * b' * (10 * b)) with (10 * (B * b) * b') by ring.
      apply Z.mul_le_mono_pos_r; [exact P4|]. rewrite Z.mul_1_l in H. rewrite <- (Z.mul_assoc (10 ^ 13) a w) in H, L. set (u := a * w) in *. clearbody u. lia.
    + apply (Z.mul_lt_mono_pos_r (10 * b)); [lia|]. replace ((10 ^ 14 - 1 + 1) * a' * w * (10 * b)) with (10 ^ 14 * (10 * a' * b * w)) by ring. rewrite Q.
      replace (10 ^ 14 * (a * b' * w)) with (10 ^ 14 * (a * w) * b') by ring. replace (B * b' * (10 * b)) with (10 * (B * b) * b') by ring.
      apply Z.mul_lt_mono_pos_r; [exact P4|]. rewrite <- (Z.mul_assoc (10 ^ 13) a w) in L. set (u := a * w) in *. clearbody u. lia.
  - replace (k + 141 - 141) with k by lia. split; [lia|]. unfold dec_le_bin, bin_lt_dec. replace (c - 1 + 1) with c by lia.
    assert (D : dec_side c k e = dec_side (c - 1) k e + dec_side 1 k e) by (unfold dec_side; ring). lia.
Qed.

(** * Division to fourteen digits *)
Lemma near_shift h k d a e0 B : 0 <= k -> 0 < d -> B * (h * 10 ^ k * (d * up 10 e0) - a * up 10 (- e0)) <= 10 ^ k * (d * up 10 e0) ->
  B * (h * up 10 (e0 + k) * d - a * up 10 (- (e0 + k))) <= up 10 (e0 + k) * d.
Proof.
  intros K D H. pose proof (up_add 10 e0 k ltac:(lia) K) as U. pose proof (up_pos 10 (- e0) ltac:(lia)) as P1. pose proof (up_pos 10 (- (e0 + k)) ltac:(lia)) as P2.
  apply (Z.mul_le_mono_pos_r _ _ (up 10 (- e0)) P1).
  replace (B * (h * up 10 (e0 + k) * d - a * up 10 (- (e0 + k))) * up 10 (- e0)) with (B * (h * d * (up 10 (e0 + k) * up 10 (- e0)) - a * up 10 (- e0) * up 10 (- (e0 + k)))) by ring.
  replace (up 10 (e0 + k) * d * up 10 (- e0)) with (d * (up 10 (e0 + k) * up 10 (- e0))) by ring. rewrite U.
  replace (B * (h * d * (up 10 e0 * 10 ^ k * up 10 (- (e0 + k))) - a * up 10 (- e0) * up 10 (- (e0 + k)))) with (B * (h * 10 ^ k * (d * up 10 e0) - a * up 10 (- e0)) * up 10 (- (e0 + k))) by ring.
  replace (d * (up 10 e0 * 10 ^ k * up 10 (- (e0 + k)))) with (10 ^ k * (d * up 10 e0) * up 10 (- (e0 + k))) by ring. now apply Z.mul_le_mono_pos_r.
Qed.
Lemma near_abs h k d a e0 : 0 <= k -> 0 < d -> 2 * Z.abs (h * 10 ^ k * (d * up 10 e0) - a * up 10 (- e0)) <= 10 ^ k * (d * up 10 e0) ->
  2 * Z.abs (h * up 10 (e0 + k) * d - a * up 10 (- (e0 + k))) <= up 10 (e0 + k) * d.
Proof.
  intros K D H. pose proof (near_shift h k d a e0 2 K D ltac:(lia)). pose proof (near_shift h k d a e0 (-2) K D ltac:(lia)). lia.
Qed.
(** Rounding a quotient [c0 * 10 ^ e0] of [a / d] that is exact, or has at least one digit
    too many and a last digit other than 0 and 5. *)
Lemma dec_fix_near neg c0 e0 a d : 0 < c0 -> 0 < d ->
  (a * up 10 (- e0) = c0 * (d * up 10 e0) \/
   10 ^ 14 <= c0 /\ c0 mod 5 <> 0 /\ Z.abs (c0 * (d * up 10 e0) - a * up 10 (- e0)) < d * up 10 e0) ->
  exists c e, dec_fix (Dec neg c0 e0) = Dec neg c e /\ 0 < c < 10 ^ 14 /\ (c * up 10 e * d = a * up 10 (- e) \/ near14 a d c e).
Proof.
  intros C D V. destruct (ndigits_spec c0 C) as [B L]. unfold dec_fix. cbn [d_coef d_neg d_exp]. cbv zeta. set (k := ndigits c0 - 14).
  destruct (k <=? 0) eqn:K.
  - exists c0, e0. split; [reflexivity|]. assert (L14 : 10 ^ ndigits c0 <= 10 ^ 14) by (apply Z.pow_le_mono_r; lia). split; [lia|]. destruct V as [V|[V _]]; [left|lia]. rewrite V. ring.
  - assert (KP : 1 <= k) by lia. clear K. assert (B1 : 10 ^ 13 * 10 ^ k <= c0) by (rewrite <- Z.pow_add_r by lia; replace (13 + k) with (ndigits c0 - 1) by lia; lia).
    assert (B2 : c0 < 10 ^ 14 * 10 ^ k) by (rewrite <- Z.pow_add_r by lia; replace (14 + k) with (ndigits c0) by lia; lia). clear B L.
    assert (T : 10 ^ k = 10 * 10 ^ (k - 1)) by (rewrite <- Z.pow_succ_r by lia; f_equal; lia). pose proof (pow10_pos (k - 1) ltac:(lia)) as P0.
    clearbody k. set (p := 10 ^ k) in *. set (z := 10 ^ (k - 1)) in *. clearbody z.
    assert (P : 0 < p) by lia. pose proof (half_even_bounds c0 p (10 ^ 13) (10 ^ 14) P ltac:(lia)) as HB. pose proof (half_even_spec c0 p P) as HS. set (h := half_even c0 p) in *. clearbody h.
    set (den := d * up 10 e0) in *. set (num := a * up 10 (- e0)) in *. assert (PD : 0 < den) by (apply Z.mul_pos_pos; [exact D|apply up_pos; lia]).
    assert (N : 2 * Z.abs (h * p * den - num) <= p * den).
    { destruct V as [->|(V1 & V2 & V3)].
      - rewrite <- Z.mul_sub_distr_r, Z.abs_mul, (Z.abs_eq den) by lia. replace (h * p - c0) with (- (c0 - h * p)) by ring. rewrite Z.abs_opp. nia.
      - assert (S : 2 * Z.abs (c0 - h * p) <= p - 2).
        { assert (2 * Z.abs (c0 - h * p) <> p); [|lia]. intros Q. apply V2. rewrite T in Q, HS.
          assert (c0 = (2 * h * z + z) * 5 \/ c0 = (2 * h * z - z) * 5) as [->| ->] by lia; apply Z.mod_mul; lia. }
        assert (A : Z.abs (h * p * den - num) <= Z.abs (c0 - h * p) * den + Z.abs (c0 * den - num)).
        { replace (h * p * den - num) with (- ((c0 - h * p) * den) + (c0 * den - num)) by ring. pose proof (Z.abs_mul (c0 - h * p) den). rewrite (Z.abs_eq den) in * by lia. lia. }
        set (t := Z.abs (c0 - h * p)) in *. clearbody t. assert (2 * t * den <= (p - 2) * den) by (apply Z.mul_le_mono_nonneg_r; lia). lia. }
    destruct (h <? 10 ^ 14) eqn:H14.
    + exists h, (e0 + k). split; [reflexivity|]. split; [lia|]. right. split; [lia|]. split; [apply near_abs; [lia|exact D|exact N]|].
      intros -> LT. exfalso.
      assert (G : 10 ^ 13 * p * den <= num).
      { destruct V as [->|(V1 & V2 & V3)]; [nia|]. assert (c0 <> 10 ^ 13 * p) by (intros ->; apply V2; rewrite T; replace (10 ^ 13 * (10 * z)) with (10 ^ 13 * z * 2 * 5) by ring; apply Z.mod_mul; lia).
        assert ((10 ^ 13 * p + 1) * den <= c0 * den) by (apply Z.mul_le_mono_nonneg_r; lia). lia. }
      pose proof (up_add 10 e0 k ltac:(lia) ltac:(lia)) as U. pose proof (up_pos 10 (- e0) ltac:(lia)) as Q1. pose proof (up_pos 10 (- (e0 + k)) ltac:(lia)) as Q2. fold p in U.
      apply (Z.mul_lt_mono_pos_r (up 10 (- e0)) _ _ Q1) in LT. replace (10 ^ 13 * up 10 (e0 + k) * d * up 10 (- e0)) with (10 ^ 13 * d * (up 10 (e0 + k) * up 10 (- e0))) in LT by ring. rewrite U in LT.
      replace (10 ^ 13 * d * (up 10 e0 * p * up 10 (- (e0 + k)))) with (10 ^ 13 * p * den * up 10 (- (e0 + k))) in LT by (unfold den; ring).
      replace (a * up 10 (- (e0 + k)) * up 10 (- e0)) with (num * up 10 (- (e0 + k))) in LT by (unfold num; ring). apply Z.mul_lt_mono_pos_r in LT; [|exact Q2]. lia.
    + assert (h = 10 ^ 14) as -> by lia. change (10 ^ 14 / 10) with (10 ^ 13). exists (10 ^ 13), (e0 + k + 1). split; [reflexivity|]. split; [lia|]. right. split; [lia|].
      assert (PK : 10 ^ (k + 1) = 10 * p) by (rewrite Z.pow_add_r by lia; change (10 ^ 1) with 10; unfold p; ring).
      replace (e0 + k + 1) with (e0 + (k + 1)) by lia. split.
      * apply near_abs; [lia|exact D|]. rewrite PK. fold den num. replace (10 ^ 13 * (10 * p) * den) with (10 ^ 14 * p * den) by ring. lia.
      * intros _ _. apply near_shift; [lia|exact D|]. rewrite PK. fold den num. replace (10 ^ 13 * (10 * p) * den) with (10 ^ 14 * p * den) by ring. lia.
Qed.
Lemma dec_div_near n d : n <> 0 -> 0 < d -> exists c e, dec_div n d = Dec (n <? 0) c e /\ 0 < c < 10 ^ 14 /\
  (c * up 10 e * d = Z.abs n * up 10 (- e) \/ near14 (Z.abs n) d c e).
Proof.
  intros Hn Hd. unfold dec_div. set (a := Z.abs n) in *. assert (A : 0 < a) by lia. clearbody a. replace (a =? 0) with false by lia. cbv zeta.
  destruct (ndigits_spec a A) as [Ba La]. destruct (ndigits_spec d Hd) as [Bd Ld]. set (sh := ndigits d - ndigits a + 15).
  assert (EN : (if 0 <=? sh then a * 10 ^ sh else a) = a * up 10 sh) by (unfold up; destruct (0 <=? sh) eqn:S; [replace (Z.max sh 0) with sh by lia|replace (Z.max sh 0) with 0 by lia; change (10 ^ 0) with 1]; lia).
  assert (ED : (if 0 <=? sh then d else d * 10 ^ (- sh)) = d * up 10 (- sh)) by (unfold up; destruct (0 <=? sh) eqn:S; [replace (Z.max (- sh) 0) with 0 by lia; change (10 ^ 0) with 1|replace (Z.max (- sh) 0) with (- sh) by lia]; lia).
  rewrite EN, ED. clear EN ED. set (num := a * up 10 sh). set (den := d * up 10 (- sh)).
  pose proof (up_pos 10 sh ltac:(lia)) as P1. pose proof (up_pos 10 (- sh) ltac:(lia)) as P2. assert (PD : 0 < den) by (apply Z.mul_pos_pos; lia).
  assert (U : 10 ^ (ndigits a - 1) * up 10 sh = 10 ^ ndigits d * 10 ^ 14 * up 10 (- sh)).
  { unfold up. rewrite <- !Z.pow_add_r by lia. f_equal. lia. }
  assert (Q1 : 10 ^ 14 * den <= num) by (unfold num, den; nia). clear U Ba Bd La Ld.
  pose proof (Z.div_mod num den ltac:(lia)) as DM. pose proof (Z.mod_pos_bound num den PD) as MB. set (q := num / den) in *.
  assert (B1 : 10 ^ 14 <= q) by (unfold q; apply Z.div_le_lower_bound; lia).
  destruct (num mod den =? 0) eqn:EX.
  - destruct (strip_zeros_spec (Z.to_nat sh) q (- sh) ltac:(lia)) as (j & J & SN & FS & FP).
    destruct (strip_zeros (Z.to_nat sh) q (- sh)) as [c0 e0]. cbn [fst snd] in *. apply dec_fix_near; [exact FP|exact Hd|left].
    subst e0. pose proof (up_add 10 (- sh) j ltac:(lia) J) as U. rewrite Z.opp_involutive in U. pose proof (up_pos 10 (- (- sh + j)) ltac:(lia)) as P3.
    apply (Z.mul_cancel_r _ _ (up 10 sh)); [lia|]. replace (c0 * (d * up 10 (- sh + j)) * up 10 sh) with (c0 * d * (up 10 (- sh + j) * up 10 sh)) by ring. rewrite U.
    replace (a * up 10 (- (- sh + j)) * up 10 sh) with (num * up 10 (- (- sh + j))) by (unfold num; ring). replace num with (q * den) by lia. rewrite <- FS. unfold den. ring.
  - set (q' := if q mod 5 =? 0 then q + 1 else q). assert (Hq : q' mod 5 <> 0 /\ (q' = q \/ q' = q + 1)) by (unfold q'; destruct (q mod 5 =? 0) eqn:E5; [pose proof (Z.div_mod q 5 ltac:(lia)); pose proof (Z.mod_pos_bound (q + 1) 5); lia|lia]).
    clearbody q'. destruct Hq as [H5 Hq]. apply dec_fix_near; [lia|exact Hd|right]. rewrite Z.opp_involutive. fold den num. split; [lia|]. split; [exact H5|]. destruct Hq as [->| ->]; lia.
Qed.
Lemma pos_factor a p : 0 < p -> 0 < a * p -> 0 < a.
Proof. intros. nia. Qed.
Lemma step10 x y s w : 0 < w -> x < y -> 0 <= x + s -> 10 * (10 ^ (x + s) * w) <= 10 ^ (y + s) * w.
Proof.
  intros W L S. rewrite Z.mul_assoc. apply Z.mul_le_mono_nonneg_r; [lia|]. replace (y + s) with (1 + (x + s) + (y - x - 1)) by lia. rewrite (Z.pow_add_r 10 (1 + (x + s))), (Z.pow_add_r 10 1) by lia. change (10 ^ 1) with 10.
  pose proof (pow10_pos (y - x - 1) ltac:(lia)). pose proof (pow10_pos (x + s) S). nia.
Qed.
Lemma near14_back m e c k M X : 10 ^ 13 <= c < 10 ^ 14 -> 90 * Z.abs (bin_side m e k - dec_side c k e) < dec_side 1 k e ->
  near14 (m * up 2 e) (up 2 (- e)) M X -> M = c /\ X = k.
Proof.
  intros C H (HM & N & CL). set (w := up 2 (- e)) in *. assert (W : 0 < w) by (apply up_pos; lia).
  set (s := Z.max (- X) (Z.max (- k) 0)). assert (SX : 0 <= X + s) by lia. assert (SK : 0 <= k + s) by lia. pose proof (pow10_pos s ltac:(lia)) as PS. set (V := m * up 2 e * 10 ^ s). set (P := 10 ^ (k + s) * w). set (R := 10 ^ (X + s) * w).
  pose proof (up_shift 10 k s ltac:(lia) ltac:(lia) ltac:(lia)) as UK. pose proof (up_shift 10 X s ltac:(lia) ltac:(lia) ltac:(lia)) as UX.
  pose proof (up_pos 10 (- k) ltac:(lia)) as PK. pose proof (up_pos 10 (- X) ltac:(lia)) as PX.
  assert (PP : 0 < P) by (apply Z.mul_pos_pos; [apply pow10_pos; lia|exact W]). assert (PR : 0 < R) by (apply Z.mul_pos_pos; [apply pow10_pos; lia|exact W]).
  assert (H1 : 90 * Z.abs (V - c * P) < P).
  { assert (E : (V - c * P) * up 10 (- k) = (bin_side m e k - dec_side c k e) * 10 ^ s).
    { unfold V, P, bin_side, dec_side. fold w. replace ((m * up 2 e * 10 ^ s - c * (10 ^ (k + s) * w)) * up 10 (- k)) with (m * up 2 e * 10 ^ s * up 10 (- k) - c * w * (10 ^ (k + s) * up 10 (- k))) by ring. rewrite <- UK. ring. }
    assert (E1 : P * up 10 (- k) = dec_side 1 k e * 10 ^ s) by (unfold P, dec_side; fold w; replace (10 ^ (k + s) * w * up 10 (- k)) with (w * (10 ^ (k + s) * up 10 (- k))) by ring; rewrite <- UK; ring).
    apply (Z.mul_lt_mono_pos_r (up 10 (- k)) _ _ PK). rewrite E1. rewrite <- (Z.abs_eq (up 10 (- k))) at 1 by lia. rewrite <- Z.mul_assoc, <- Z.abs_mul, E, Z.abs_mul, (Z.abs_eq (10 ^ s)) by lia.
    rewrite Z.mul_assoc. now apply Z.mul_lt_mono_pos_r. }
  assert (E2 : (M * R - V) * up 10 (- X) = (M * up 10 X * w - m * up 2 e * up 10 (- X)) * 10 ^ s).
  { unfold V, R. replace ((M * (10 ^ (X + s) * w) - m * up 2 e * 10 ^ s) * up 10 (- X)) with (M * w * (10 ^ (X + s) * up 10 (- X)) - m * up 2 e * 10 ^ s * up 10 (- X)) by ring. rewrite <- UX. ring. }
  assert (E3 : R * up 10 (- X) = up 10 X * w * 10 ^ s) by (unfold R; replace (10 ^ (X + s) * w * up 10 (- X)) with (w * (10 ^ (X + s) * up 10 (- X))) by ring; rewrite <- UX; ring).
  assert (H2 : 2 * Z.abs (M * R - V) <= R).
  { apply (Z.mul_le_mono_pos_r _ _ (up 10 (- X)) PX). rewrite E3. rewrite <- (Z.abs_eq (up 10 (- X))) at 1 by lia. rewrite <- Z.mul_assoc, <- Z.abs_mul, E2, Z.abs_mul, (Z.abs_eq (10 ^ s)) by lia.
    rewrite Z.mul_assoc. now apply Z.mul_le_mono_pos_r. }
  assert (H3 : M = 10 ^ 13 -> V < M * R -> 20 * (M * R - V) <= R).
  { intros M0 LT. apply (Z.mul_le_mono_pos_r _ _ (up 10 (- X)) PX). rewrite E3, <- Z.mul_assoc, E2, Z.mul_assoc. apply Z.mul_le_mono_pos_r; [exact PS|]. apply CL; [exact M0|].
    assert (0 < (M * R - V) * up 10 (- X)) by (apply Z.mul_pos_pos; lia). rewrite E2 in *. match goal with Y : 0 < ?t * 10 ^ s |- _ => pose proof (pos_factor t (10 ^ s) PS Y) as Y' end. clear - Y'. lia. }
  assert (BC : 10 ^ 13 * P <= c * P <= (10 ^ 14 - 1) * P) by (split; apply Z.mul_le_mono_nonneg_r; lia).
  assert (BM : 10 ^ 13 * R <= M * R <= (10 ^ 14 - 1) * R) by (split; apply Z.mul_le_mono_nonneg_r; lia).
  destruct (Z.lt_trichotomy X k) as [LT|[->|GT]].
  - exfalso. assert (G : 10 * R <= P) by (apply step10; [exact W|exact LT|exact SX]). clear - G H1 H2 BC BM PP PR. lia.
  - split; [|reflexivity]. fold P in R. change R with P in *. clear - H1 H2 PP. assert (A : Z.abs (M * P - c * P) < P) by lia. rewrite <- Z.mul_sub_distr_r, Z.abs_mul, (Z.abs_eq P) in A by lia. nia.
  - exfalso. assert (G : 10 * P <= R) by (apply step10; [exact W|exact GT|exact SK]).
    destruct (Z.eq_dec M (10 ^ 13)) as [M0|M0].
    + specialize (H3 M0). rewrite M0 in *. clear - G H1 H2 H3 BC PP PR. lia.
    + assert (G2 : (10 ^ 13 + 1) * R <= M * R) by (apply Z.mul_le_mono_nonneg_r; lia). clear - G G2 H1 H2 BC PP PR. lia.
Qed.
