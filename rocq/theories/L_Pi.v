(** Lemmas for fractional multiples of pi: relative errors of decimal arithmetic. *)
From Verif Require Import L_Base M_Data M_Numeric M_Class M_Var M_Real M_Complex M_List M_Text S_Data L_Data S_Real L_Real L_Frac.

Lemma dec_round_rel p neg c e : 1 <= p -> 0 < c -> exists c' e',
  dec_round p (Dec neg c e) = Dec neg c' e' /\ 0 < c' < 10 ^ p /\ e <= e' /\ 2 * 10 ^ (p - 1) * Z.abs (c' * 10 ^ (e' - e) - c) <= c.
Proof.
  intros Hp H. destruct (ndigits_spec c H) as [B L]. unfold dec_round. cbn [d_coef d_neg d_exp]. cbv zeta.
  set (k := ndigits c - p). destruct (k <=? 0) eqn:K.
  - exists c, e. split; auto. split; [|split; [lia|]].
    + split; auto. apply Z.lt_le_trans with (10 ^ ndigits c); [lia|]. apply Z.pow_le_mono_r; lia.
    + rewrite Z.sub_diag. change (10 ^ 0) with 1. replace (c * 1 - c) with 0 by lia. cbn [Z.abs]. lia.
  - pose proof (pow10_pos k ltac:(lia)) as P. pose proof (half_even_spec c (10 ^ k) P) as HE. set (h := half_even c (10 ^ k)) in *.
    assert (C1 : 10 ^ (p - 1) * 10 ^ k <= c) by (rewrite <- Z.pow_add_r by lia; replace (p - 1 + k) with (ndigits c - 1) by lia; lia).
    assert (C2 : c < 10 * 10 ^ (p - 1) * 10 ^ k) by (change 10 with (10 ^ 1) at 1; rewrite <- !Z.pow_add_r by lia; replace (1 + (p - 1) + k) with (ndigits c) by lia; lia).
    assert (EP : 10 ^ p = 10 * 10 ^ (p - 1)) by (change 10 with (10 ^ 1) at 2; rewrite <- Z.pow_add_r by lia; f_equal; lia).
    pose proof (pow10_pos (p - 1) ltac:(lia)) as PP. rewrite EP. set (u := 10 ^ (p - 1)) in *. set (q := 10 ^ k) in *.
    assert (H1 : u <= h) by nia. assert (H2 : h <= 10 * u) by nia.
    assert (ERR : 2 * u * Z.abs (h * q - c) <= c) by nia.
    destruct (h <? 10 * u) eqn:E.
    + exists h, (e + k). split; auto. split; [lia|]. split; [lia|]. replace (e + k - e) with k by lia. exact ERR.
    + assert (h = 10 * u) as Eh by lia. rewrite Eh in *. exists u, (e + k + 1). split; [f_equal; rewrite Z.mul_comm; now apply Z.div_mul|].
      split; [lia|]. split; [lia|]. replace (e + k + 1 - e) with (k + 1) by lia. rewrite Z.pow_add_r by lia. fold q. change (10 ^ 1) with 10.
      replace (u * (q * 10) - c) with (10 * u * q - c) by ring. exact ERR.
Qed.
(** The absolute value of a decimal at scale [K]. *)
Definition scaled (K c e : Z) : Z := c * 10 ^ (K + e).
Lemma scaled_pos K c e : 0 <= K + e -> 0 < c -> 0 < scaled K c e.
Proof. intros H C. unfold scaled. pose proof (pow10_pos (K + e) H). nia. Qed.
Lemma scaled_up K c e e' : 0 <= K + e -> e <= e' -> scaled K c e' = c * 10 ^ (e' - e) * 10 ^ (K + e).
Proof. intros H E. unfold scaled. rewrite <- Z.mul_assoc, <- Z.pow_add_r by lia. do 2 f_equal. lia. Qed.
Lemma times_rel K neg c e : 0 < c -> 13 <= K + e -> exists c' e',
  dec_times 14 (Dec neg c e) dec_pi = Dec neg c' e' /\ 0 < c' < 10 ^ 14 /\ e - 13 <= e' /\
  2 * 10 ^ 13 * Z.abs (10 ^ 13 * scaled K c' e' - 31415926535898 * scaled K c e) <= 31415926535898 * scaled K c e.
Proof.
  intros C H. unfold dec_times, dec_pi. cbn [d_neg d_coef d_exp]. rewrite xorb_false_r.
  destruct (dec_round_rel 14 neg (c * 31415926535898) (e + -13) ltac:(lia) ltac:(lia)) as (c' & e' & E & B & L & R).
  exists c', e'. split; [exact E|]. split; [exact B|]. split; [lia|].
  rewrite (scaled_up K c' (e + -13) e') by lia. unfold scaled. change (14 - 1) with 13 in R.
  replace (10 ^ (K + e)) with (10 ^ 13 * 10 ^ (K + (e + -13))) by (rewrite <- Z.pow_add_r by lia; f_equal; lia).
  pose proof (pow10_pos (K + (e + -13)) ltac:(lia)) as P. set (q := 10 ^ (K + (e + -13))) in *. set (w := c' * 10 ^ (e' - (e + -13))) in *. clearbody q w.
  change (10 ^ 13) with 10000000000000 in *.
  replace (10000000000000 * (w * q) - 31415926535898 * (c * (10000000000000 * q))) with ((w - c * 31415926535898) * (10000000000000 * q)) by ring.
  rewrite Z.abs_mul, (Z.abs_eq (10000000000000 * q)) by lia.
  replace (31415926535898 * (c * (10000000000000 * q))) with (c * 31415926535898 * (10000000000000 * q)) by ring. rewrite Z.mul_assoc.
  apply Z.mul_le_mono_nonneg_r; lia.
Qed.
Lemma over_rel K neg c e : 0 < c < 10 ^ 14 -> 50 <= K + e -> exists c' e',
  dec_over 28 (Dec neg c e) dec_pi = Dec neg c' e' /\ 0 < c' /\ 0 <= K + e' /\
  10 ^ 26 * Z.abs (31415926535898 * scaled K c' e' - 10 ^ 13 * scaled K c e) <= 10 ^ 13 * scaled K c e.
Proof.
  intros C H. unfold dec_over, dec_pi. cbn [d_neg d_coef d_exp]. rewrite xorb_false_r. replace (c =? 0) with false by lia.
  destruct (ndigits_spec c ltac:(lia)) as [B L]. pose proof (ndigits_le c 14 ltac:(lia) ltac:(lia)) as N.
  change (ndigits 31415926535898) with 14. cbv zeta. set (sh := 14 - ndigits c + 28 + 1). assert (SH : 29 <= sh <= 42) by lia.
  replace (0 <=? sh) with true by lia. set (num := c * 10 ^ sh).
  assert (Q1 : 10 ^ 42 <= num).
  { unfold num. assert (E : 10 ^ (ndigits c - 1) * 10 ^ sh = 10 ^ 42) by (rewrite <- Z.pow_add_r by lia; f_equal; lia). nia. }
  pose proof (Z.div_mod num 31415926535898 ltac:(lia)) as DM. pose proof (Z.mod_pos_bound num 31415926535898 ltac:(lia)) as MB. set (q := num / 31415926535898) in *.
  set (s := e - -13 - sh).
  (* a quotient near enough, then rounded *)
  assert (FIN : forall q' c0 j, 0 < c0 -> 0 <= j -> c0 * 10 ^ j = q' -> Z.abs (q' * 31415926535898 - num) <= 31415926535898 ->
    exists c' e', dec_round 28 (Dec neg c0 (s + j)) = Dec neg c' e' /\ 0 < c' /\ 0 <= K + e' /\
      10 ^ 26 * Z.abs (31415926535898 * scaled K c' e' - 10 ^ 13 * scaled K c e) <= 10 ^ 13 * scaled K c e).
  { intros q' c0 j C0 J EQ NEAR. destruct (dec_round_rel 28 neg c0 (s + j) ltac:(lia) C0) as (c' & e' & E & B' & L' & R).
    exists c', e'. split; [exact E|]. split; [lia|]. split; [lia|]. rewrite (scaled_up K c' (s + j) e') by lia.
    set (w := c' * 10 ^ (e' - (s + j))) in *. change (28 - 1) with 27 in R.
    replace (10 ^ (K + (s + j))) with (10 ^ j * 10 ^ (K + s)) by (rewrite <- Z.pow_add_r by lia; f_equal; lia).
    pose proof (pow10_pos j J) as PJ. pose proof (pow10_pos (K + s) ltac:(lia)) as PS.
    assert (EX : 10 ^ 13 * scaled K c e = num * 10 ^ (K + s)).
    { unfold scaled, num. transitivity (c * (10 ^ 13 * 10 ^ (K + e))); [ring|]. rewrite <- Z.mul_assoc, <- !Z.pow_add_r by lia. do 2 f_equal. lia. }
    rewrite EX. set (g := 10 ^ (K + s)) in *. set (y := 10 ^ j) in *. clearbody w g y num.
    assert (R2 : 2 * 10 ^ 27 * Z.abs (w * y - q') <= q').
    { rewrite <- EQ. rewrite <- Z.mul_sub_distr_r, Z.abs_mul, (Z.abs_eq y) by lia. rewrite Z.mul_assoc. apply Z.mul_le_mono_nonneg_r; lia. }
    assert (R3 : 10 ^ 26 * Z.abs (31415926535898 * (w * y) - num) <= num).
    { change (10 ^ 42) with 1000000000000000000000000000000000000000000 in Q1. change (10 ^ 27) with 1000000000000000000000000000 in R2. change (10 ^ 26) with 100000000000000000000000000.
      set (t := w * y) in *. clearbody t. clear - Q1 R2 NEAR. lia. }
    replace (31415926535898 * (w * (y * g)) - num * g) with ((31415926535898 * (w * y) - num) * g) by ring.
    rewrite Z.abs_mul, (Z.abs_eq g) by lia. rewrite Z.mul_assoc. apply Z.mul_le_mono_nonneg_r; [lia|exact R3]. }
  assert (QP : 0 < q) by (change (10 ^ 42) with 1000000000000000000000000000000000000000000 in Q1; lia).
  destruct (num mod 31415926535898 =? 0) eqn:EX.
  - destruct (strip_zeros_spec (Z.to_nat sh) q (- sh) QP) as (j & J & SN & FS & FP).
    destruct (strip_zeros (Z.to_nat sh) q (- sh)) as [c0 e0]. cbn [fst snd] in *. subst e0.
    replace (e - -13 + (- sh + j)) with (s + j) by (unfold s; lia). apply (FIN q); auto. clear - DM MB. lia.
  - rewrite <- (Z.add_0_r s). destruct (q mod 5 =? 0).
    + apply (FIN (q + 1)); [lia|lia|change (10 ^ 0) with 1; lia|clear - DM MB; lia].
    + apply (FIN q); [lia|lia|change (10 ^ 0) with 1; lia|clear - DM MB; lia].
Qed.

(** Division of integers: relative error. *)
Lemma dec_div_rel n d : n <> 0 -> 0 < d <= 10000 -> Z.abs n < 10 ^ 5 * d ->
  exists c e, dec_div n d = Dec (n <? 0) c e /\ 0 < c < 10 ^ 14 /\ -19 <= e /\
    forall K, 19 <= K -> 10 ^ 13 * Z.abs (scaled K c e * d - Z.abs n * 10 ^ K) <= Z.abs n * 10 ^ K.
Proof.
  intros Hn Hd Ha. unfold dec_div. set (a := Z.abs n) in *. assert (A : 0 < a) by (unfold a; lia).
  replace (a =? 0) with false by lia. cbv zeta.
  destruct (ndigits_spec a A) as [Ba La]. destruct (ndigits_spec d ltac:(lia)) as [Bd Ld].
  set (sh := ndigits d - ndigits a + 15).
  assert (Nd : ndigits d <= 5) by (apply (ndigits_le d 5); lia).
  assert (Na : ndigits a <= ndigits d + 5).
  { destruct (Z.le_gt_cases (ndigits a) (ndigits d + 5)); auto. exfalso.
    assert (10 ^ (ndigits d + 5) <= 10 ^ (ndigits a - 1)) by (apply Z.pow_le_mono_r; lia). rewrite Z.pow_add_r in * by lia. nia. }
  assert (SH : 10 <= sh <= 19) by (unfold sh; lia). replace (0 <=? sh) with true by lia.
  set (num := a * 10 ^ sh). pose proof (pow10_pos sh ltac:(lia)) as PS.
  assert (Q1 : d * 10 ^ 14 <= num).
  { unfold num. assert (E : 10 ^ (ndigits a - 1) * 10 ^ sh = 10 ^ ndigits d * 10 ^ 14) by (rewrite <- !Z.pow_add_r by lia; f_equal; unfold sh; lia). nia. }
  pose proof (Z.div_mod num d ltac:(lia)) as DM. pose proof (Z.mod_pos_bound num d ltac:(lia)) as MB. set (q := num / d) in *.
  assert (B1 : 10 ^ 14 <= q) by (unfold q; apply Z.div_le_lower_bound; lia).
  assert (FIN : forall q' c0 j, 0 < c0 -> 0 <= j -> c0 * 10 ^ j = q' -> Z.abs (q' * d - num) <= d ->
    exists c e, dec_fix (Dec (n <? 0) c0 (- sh + j)) = Dec (n <? 0) c e /\ 0 < c < 10 ^ 14 /\ -19 <= e /\
      forall K, 19 <= K -> 10 ^ 13 * Z.abs (scaled K c e * d - a * 10 ^ K) <= a * 10 ^ K).
  { intros q' c0 j C0 J EQ NEAR. destruct (dec_round_rel 14 (n <? 0) c0 (- sh + j) ltac:(lia) C0) as (c & e & E & B & L & R).
    change (dec_round 14) with dec_fix in E. exists c, e. split; [exact E|]. split; [exact B|]. split; [lia|]. intros K HK.
    rewrite (scaled_up K c (- sh + j) e) by lia. set (w := c * 10 ^ (e - (- sh + j))) in *. change (14 - 1) with 13 in R.
    replace (10 ^ (K + (- sh + j))) with (10 ^ j * 10 ^ (K - sh)) by (rewrite <- Z.pow_add_r by lia; f_equal; lia).
    pose proof (pow10_pos j J) as PJ. pose proof (pow10_pos (K - sh) ltac:(lia)) as PK.
    replace (a * 10 ^ K) with (num * 10 ^ (K - sh)) by (unfold num; rewrite <- Z.mul_assoc, <- Z.pow_add_r by lia; do 2 f_equal; lia).
    set (g := 10 ^ (K - sh)) in *. set (y := 10 ^ j) in *. clearbody w g y num.
    assert (R2 : 2 * 10 ^ 13 * Z.abs (w * y - q') <= q').
    { rewrite <- EQ. rewrite <- Z.mul_sub_distr_r, Z.abs_mul, (Z.abs_eq y) by lia. rewrite Z.mul_assoc. apply Z.mul_le_mono_nonneg_r; lia. }
    assert (R3 : 10 ^ 13 * Z.abs (w * y * d - num) <= num).
    { assert (R4 : 2 * 10 ^ 13 * (Z.abs (w * y - q') * d) <= q' * d) by (rewrite Z.mul_assoc; apply Z.mul_le_mono_nonneg_r; lia).
      assert (R5 : Z.abs (w * y - q') * d = Z.abs (w * y * d - q' * d)) by (rewrite <- Z.mul_sub_distr_r, Z.abs_mul, (Z.abs_eq d) by lia; reflexivity).
      rewrite R5 in R4. change (10 ^ 14) with 100000000000000 in Q1. change (10 ^ 13) with 10000000000000 in *.
      set (t := w * y * d) in *. set (v := q' * d) in *. clearbody t v. clear - Q1 R4 NEAR. lia. }
    replace (w * (y * g) * d - num * g) with ((w * y * d - num) * g) by ring.
    rewrite Z.abs_mul, (Z.abs_eq g) by lia. rewrite Z.mul_assoc. apply Z.mul_le_mono_nonneg_r; [lia|exact R3]. }
  fold num. destruct (num mod d =? 0) eqn:EX.
  - destruct (strip_zeros_spec (Z.to_nat sh) q (- sh) ltac:(lia)) as (j & J & SN & FS & FP).
    destruct (strip_zeros (Z.to_nat sh) q (- sh)) as [c0 e0]. cbn [fst snd] in *. subst e0.
    apply (FIN q); auto. clear - DM MB. lia.
  - rewrite <- (Z.add_0_r (- sh)). destruct (q mod 5 =? 0).
    + apply (FIN (q + 1)); [lia|lia|change (10 ^ 0) with 1; lia|clear - DM MB; lia].
    + apply (FIN q); [lia|lia|change (10 ^ 0) with 1; lia|clear - DM MB; lia].
Qed.
Lemma dec_ratio_scaled K neg c e : 0 <= K + e -> 0 <= K -> exists N D, dec_ratio (Dec neg c e) = (N, D) /\ 0 < D /\ Z.gcd N D = 1 /\
  N * 10 ^ K = (if neg then - scaled K c e else scaled K c e) * D.
Proof.
  intros H HK. destruct (Z.lt_ge_cases e 0) as [L|L].
  - destruct (dec_ratio_spec neg c e L) as (N & D & E & P & G & V). exists N, D. split; [exact E|]. split; [exact P|]. split; [exact G|].
    replace (10 ^ K) with (10 ^ (- e) * 10 ^ (K + e)) by (rewrite <- Z.pow_add_r by lia; f_equal; lia). rewrite Z.mul_assoc, V. unfold scaled. destruct neg; ring.
  - unfold dec_ratio. cbn [d_neg d_coef d_exp]. replace (0 <=? e) with true by lia. eexists _, 1. split; [reflexivity|]. split; [lia|].
    split; [apply Z.gcd_1_r|]. unfold scaled. rewrite Z.pow_add_r by lia. destruct neg; ring.
Qed.
(** The whole way: a fraction with a small denominator is recovered from the
    product with pi. *)
Lemma pi_recovers n d c e : n <> 0 -> 1 <= d <= 10000 -> Z.gcd n d = 1 -> Z.abs n < 10 ^ 4 * d ->
  0 < c < 10 ^ 14 -> -40 <= e -> (forall K, 100 <= K -> 10 ^ 13 * Z.abs (scaled K c e * d - Z.abs n * 10 ^ K) <= Z.abs n * 10 ^ K) ->
  limit_denominator 10000 (dec_ratio (dec_over 28 (dec_times 14 (Dec (n <? 0) c e) dec_pi) dec_pi)) = (n, d).
Proof.
  intros Hn Hd G Ha C E NEAR. assert (exists K, 200 <= K) as (K & HK) by (exists 200; lia). specialize (NEAR K ltac:(lia)).
  destruct (times_rel K (n <? 0) c e ltac:(lia) ltac:(lia)) as (c1 & e1 & E1 & C1 & L1 & R1). rewrite E1.
  destruct (over_rel K (n <? 0) c1 e1 C1 ltac:(lia)) as (c2 & e2 & E2 & C2 & L2 & R2). rewrite E2.
  destruct (dec_ratio_scaled K (n <? 0) c2 e2 L2 ltac:(lia)) as (N & D & E3 & PD & GD & V). rewrite E3.
  apply limit_recovers; auto. pose proof (pow10_pos K ltac:(lia)) as P.
  set (X := scaled K c e) in *. set (Y := scaled K c1 e1) in *. set (B := scaled K c2 e2) in *. set (p := 10 ^ K) in *. set (a := Z.abs n) in *.
  assert (X0 : 0 < X) by (apply scaled_pos; lia). assert (Y0 : 0 < Y) by (apply scaled_pos; lia). assert (B0 : 0 < B) by (apply scaled_pos; lia).
  assert (SG : Z.abs (n * D - N * d) * p = Z.abs (B * d - a * p) * D).
  { transitivity (Z.abs ((n * D - N * d) * p)); [rewrite Z.abs_mul, (Z.abs_eq p) by lia; reflexivity|].
    transitivity (Z.abs ((B * d - a * p) * D)); [|rewrite Z.abs_mul, (Z.abs_eq D) by lia; reflexivity].
    replace ((n * D - N * d) * p) with (n * D * p - N * p * d) by ring. rewrite V. subst a. destruct (n <? 0) eqn:S.
    - rewrite (Z.abs_neq n) by lia. f_equal. ring.
    - rewrite (Z.abs_eq n) by lia. replace (n * D * p - B * D * d) with (- ((B * d - n * p) * D)) by ring. now rewrite Z.abs_opp. }
  assert (A0 : 0 <= a) by apply Z.abs_nonneg.
  clearbody X Y B p a. clear V E1 E2 E3 G GD HK.
  assert (M1 : Z.abs (10 ^ 13 * (Y * d) - 31415926535898 * (X * d)) = Z.abs (10 ^ 13 * Y - 31415926535898 * X) * d).
  { rewrite <- (Z.abs_eq d) at 3 by lia. rewrite <- Z.abs_mul. f_equal. ring. }
  assert (M2 : Z.abs (31415926535898 * (B * d) - 10 ^ 13 * (Y * d)) = Z.abs (31415926535898 * B - 10 ^ 13 * Y) * d).
  { rewrite <- (Z.abs_eq d) at 3 by lia. rewrite <- Z.abs_mul. f_equal. ring. }
  apply (Z.mul_le_mono_nonneg_r _ _ d ltac:(lia)) in R1. apply (Z.mul_le_mono_nonneg_r _ _ d ltac:(lia)) in R2.
  rewrite <- Z.mul_assoc, <- M1 in R1. rewrite <- (Z.mul_assoc (10 ^ 26)), <- M2 in R2. rewrite <- (Z.mul_assoc 31415926535898) in R1. rewrite <- (Z.mul_assoc (10 ^ 13)) in R2.
  assert (AP : a * p <= 10000 * (d * p)) by (rewrite Z.mul_assoc; apply Z.mul_le_mono_nonneg_r; [clear - P; lia|clear - Ha; lia]).
  assert (DP : 0 < d * p) by (apply Z.mul_pos_pos; [clear - Hd; lia|exact P]). assert (AP0 : 0 <= a * p) by (apply Z.mul_nonneg_nonneg; [exact A0|clear - P; lia]).
  assert (T : 200000000 * Z.abs (B * d - a * p) < d * p).
  { set (x := X * d) in *. set (y := Y * d) in *. set (b := B * d) in *. set (ap := a * p) in *. set (dp := d * p) in *. clearbody x y b ap dp.
    change (10 ^ 13) with 10000000000000 in *. change (10 ^ 26) with 100000000000000000000000000 in *. clear - R1 R2 NEAR AP DP AP0. lia. }
  assert (T2 : 2 * 10000 * 10000 * Z.abs (n * D - N * d) * p < d * D * p).
  { replace (2 * 10000 * 10000 * Z.abs (n * D - N * d) * p) with (200000000 * (Z.abs (n * D - N * d) * p)) by ring. rewrite SG.
    replace (200000000 * (Z.abs (B * d - a * p) * D)) with (200000000 * Z.abs (B * d - a * p) * D) by ring. replace (d * D * p) with (d * p * D) by ring.
    apply Z.mul_lt_mono_pos_r; assumption. }
  apply Z.mul_lt_mono_pos_r in T2; [exact T2|exact P].
Qed.
