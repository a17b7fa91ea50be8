(** Lemmas for the decimal value of radicals. *)
From Verif Require Import L_Base M_Data M_Numeric M_Class M_Var M_Real M_Complex M_List M_Text M_RadDec S_Data L_Data S_Real L_Real L_Frac L_Pi.

(** Whole numbers whose square is a multiple of a square. *)
Lemma square_quotient r n t : 0 < t -> 0 < r -> r * r = n * (t * t) -> exists a, r = a * t /\ a * a = n.
Proof.
  intros T R H. destruct (Z.gcd_divide_l r t) as [a A]. destruct (Z.gcd_divide_r r t) as [b B]. set (g := Z.gcd r t) in *.
  assert (G : 0 < g) by (assert (0 <= g) by apply Z.gcd_nonneg; assert (g <> 0) by (intros Q; rewrite Q in B; lia); lia).
  assert (C : Z.gcd b a = 1).
  { assert (E : g * Z.gcd b a = g) by (rewrite <- Z.gcd_mul_mono_l_nonneg by lia; rewrite (Z.mul_comm g b), (Z.mul_comm g a), <- A, <- B; apply Z.gcd_comm). nia. }
  clearbody g. subst r t. assert (E : a * a = n * (b * b)) by nia.
  assert (D : (b | a)) by (apply (Z.gauss b a a); [exists (n * b); lia|exact C]).
  assert (D1 : (b | 1)) by (rewrite <- C; apply Z.gcd_greatest; [apply Z.divide_refl|exact D]).
  assert (b = 1) by (apply Z.divide_1_r_nonneg; [nia|exact D1]). subst b. exists a. split; [ring|lia].
Qed.
Lemma digits_within k z : 0 < z -> z < 10 ^ k -> ndigits z <= k.
Proof.
  intros P H. destruct (ndigits_spec z P) as [[X _] N]. destruct (Z.le_gt_cases (ndigits z) k) as [|G]; [assumption|exfalso].
  assert (10 ^ k <= 10 ^ (ndigits z - 1)) by (apply Z.pow_le_mono_r; lia). lia.
Qed.
Lemma digits_beyond k z : 0 <= k -> 10 ^ k <= z -> k < ndigits z.
Proof. intros K H. pose proof (pow10_pos k K). destruct (ndigits_spec z ltac:(lia)) as [[_ X] N]. apply (Z.pow_lt_mono_r_iff 10); lia. Qed.
Lemma pow100 k : 0 <= k -> 100 ^ k = 10 ^ k * 10 ^ k.
Proof. intros K. change 100 with (10 * 10). now rewrite Z.pow_mul_l. Qed.
(** A root is exact or correctly rounded: [h] units of the last of [p] digits. *)
Lemma root_rounded p n : 1 <= p -> 0 < n -> ndigits n <= 2 * p ->
  let s := p + 1 - (ndigits n + 1) / 2 in
  (exists m, 0 < m < 10 ^ p /\ m * m = n /\ dec_root p n = Dec false m 0) \/
  (1 <= s /\ exists h, 10 ^ (p - 1) <= h <= 10 ^ p /\ (10 * h - 5) * (10 * h - 5) < n * 100 ^ s < (10 * h + 5) * (10 * h + 5) /\
    dec_root p n = (if h <? 10 ^ p then Dec false h (1 - s) else Dec false (h / 10) (2 - s))).
Proof.
  intros HP HN HD s. destruct (ndigits_spec n HN) as [[N1 N2] ND]. assert (S1 : 1 <= s) by (unfold s; lia).
  unfold dec_root. replace (n =? 0) with false by lia. cbv zeta. fold s. set (C := n * 100 ^ s). pose proof (pow10_pos s ltac:(lia)) as PS.
  assert (EC : C = n * (10 ^ s * 10 ^ s)) by (unfold C; now rewrite pow100 by lia). assert (CP : 0 < C) by (rewrite EC; nia).
  pose proof (Z.sqrt_spec C ltac:(lia)) as R. cbv zeta in R. pose proof (Z.sqrt_nonneg C) as RN. set (r := Z.sqrt C) in *. clearbody r. unfold Z.succ in R.
  assert (RP : 0 < r) by nia.
  destruct (r * r =? C) eqn:Q.
  - left. apply Z.eqb_eq in Q. destruct (square_quotient r n (10 ^ s) PS RP ltac:(lia)) as (a & Ea & En). assert (AP : 0 < a) by nia.
    assert (AL : a < 10 ^ p).
    { destruct (Z.lt_ge_cases a (10 ^ p)) as [|G]; [assumption|exfalso]. assert (n < 10 ^ (2 * p)) by (apply Z.lt_le_trans with (1 := N2); apply Z.pow_le_mono_r; lia).
      replace (2 * p) with (p + p) in * by lia. rewrite Z.pow_add_r in * by lia. pose proof (pow10_pos p ltac:(lia)). nia. }
    exists a. split; [lia|]. split; [exact En|]. rewrite Ea, Z.div_mul by lia. unfold dec_round. cbn [d_coef]. pose proof (digits_within p a AP AL).
    replace (ndigits a - p <=? 0) with true by lia. reflexivity.
  - right. split; [exact S1|]. apply Z.eqb_neq in Q.
    assert (RL : 10 ^ p <= r < 10 ^ (p + 1)).
    { assert (A : 10 ^ (2 * p) <= C) by (rewrite EC, <- Z.pow_add_r by lia; apply Z.le_trans with (10 ^ (ndigits n - 1) * 10 ^ (s + s)); [rewrite <- Z.pow_add_r by lia; apply Z.pow_le_mono_r; unfold s; lia|apply Z.mul_le_mono_nonneg_r; [apply Z.pow_nonneg; lia|lia]]).
      assert (B : C < 10 ^ (2 * (p + 1))) by (rewrite EC, <- Z.pow_add_r by lia; apply Z.lt_le_trans with (10 ^ ndigits n * 10 ^ (s + s)); [apply Z.mul_lt_mono_pos_r; [apply pow10_pos; lia|lia]|rewrite <- Z.pow_add_r by lia; apply Z.pow_le_mono_r; unfold s; lia]).
      replace (2 * p) with (p + p) in A by lia. replace (2 * (p + 1)) with ((p + 1) + (p + 1)) in B by lia. rewrite Z.pow_add_r in A, B by lia.
      pose proof (pow10_pos p ltac:(lia)). pose proof (pow10_pos (p + 1) ltac:(lia)). clear - A B R RN H H0. nia. }
    set (r' := if r mod 5 =? 0 then r + 1 else r).
    assert (TP : 10 ^ (p + 1) = 10 * 10 ^ p) by (rewrite Z.pow_add_r by lia; lia). assert (TQ : 10 ^ p = 10 * 10 ^ (p - 1)) by (replace p with (p - 1 + 1) at 1 by lia; rewrite Z.pow_add_r by lia; lia).
    pose proof (pow10_pos (p - 1) ltac:(lia)) as PQ. pose proof (pow10_pos p ltac:(lia)) as PP. set (q := 10 ^ (p - 1)) in *.
    assert (RL' : 10 ^ p <= r' < 10 ^ (p + 1)) by (unfold r'; destruct (r mod 5 =? 0) eqn:M; lia).
    assert (DD : ndigits r' = p + 1).
    { pose proof (digits_within (p + 1) r' ltac:(lia) ltac:(lia)). pose proof (digits_beyond p r' ltac:(lia) ltac:(lia)). lia. }
    assert (H5 : r' mod 5 <> 0) by (unfold r'; destruct (r mod 5 =? 0) eqn:M; lia).
    exists (half_even r' 10). set (h := half_even r' 10).
    assert (HH : h = (r' + 5) / 10) by (unfold h, half_even; destruct (2 * (r' mod 10) <? 10) eqn:A1; [lia|]; destruct (10 <? 2 * (r' mod 10)) eqn:A2; lia).
    split; [rewrite TQ in *; lia|]. split.
    + assert (L : 10 * h - 5 <= r /\ r + 1 <= 10 * h + 5) by (rewrite HH; unfold r' in *; destruct (r mod 5 =? 0) eqn:M; lia).
      assert (5 <= 10 * h) by lia. clear - L R Q H RN. nia.
    + unfold dec_round. cbn [d_coef d_neg d_exp]. cbv zeta. rewrite DD. replace (p + 1 - p) with 1 by lia. cbn [Z.leb Z.compare]. change (10 ^ 1) with 10. fold h.
      destruct (h <? 10 ^ p); f_equal; lia.
Qed.
(** The roots, 10^27 times as large, up to 20 units. *)
Lemma root_fact n : 0 <= n <= 1665 -> exists c x, dec_root 28 n = Dec false c x /\ -27 <= x /\ 0 <= c /\ (n = 0 -> c = 0) /\
  (n <> 0 -> let V := scaled 27 c x in 10 ^ 26 < V < 41 * 10 ^ 27 /\ (V - 20) * (V - 20) <= n * 10 ^ 54 <= (V + 20) * (V + 20)).
Proof.
  intros H. destruct (Z.eq_dec n 0) as [->|NZ].
  { exists 0, 0. split; [reflexivity|]. split; [lia|]. split; [lia|]. split; [reflexivity|]. intros X. now destruct X. }
  assert (HN : 0 < n) by lia. pose proof (digits_within 4 n HN ltac:(change (10 ^ 4) with 10000; lia)) as D4. destruct (ndigits_spec n HN) as [_ D1].
  assert (FIN : forall c x, dec_root 28 n = Dec false c x -> -27 <= x -> 0 < c -> let V := scaled 27 c x in
    10 ^ 26 < V -> (V - 20) * (V - 20) <= n * 10 ^ 54 <= (V + 20) * (V + 20) ->
    exists c x, dec_root 28 n = Dec false c x /\ -27 <= x /\ 0 <= c /\ (n = 0 -> c = 0) /\
    (n <> 0 -> let V := scaled 27 c x in 10 ^ 26 < V < 41 * 10 ^ 27 /\ (V - 20) * (V - 20) <= n * 10 ^ 54 <= (V + 20) * (V + 20))).
  { intros c x E X C V V1 V2. exists c, x. split; [exact E|]. split; [exact X|]. split; [lia|]. split; [lia|]. intros _. cbv zeta. fold V. split; [|exact V2]. split; [exact V1|].
    clearbody V. clear - H V1 V2. destruct (Z.lt_ge_cases V (41 * 10 ^ 27)) as [|G]; [assumption|exfalso].
    assert ((41 * 10 ^ 27 - 20) * (41 * 10 ^ 27 - 20) <= (V - 20) * (V - 20)) by (apply Z.mul_le_mono_nonneg; lia).
    assert (n * 10 ^ 54 <= 1665 * 10 ^ 54) by (apply Z.mul_le_mono_nonneg_r; [discriminate|lia]). lia. }
  destruct (root_rounded 28 n ltac:(lia) HN ltac:(lia)) as [(m & M & EM & E)|(S1 & h & HB & HR & E)].
  - apply (FIN m 0 E); [lia|lia| |]; unfold scaled; change (10 ^ (27 + 0)) with (10 ^ 27).
    + lia.
    + rewrite <- EM. change (10 ^ 54) with (10 ^ 27 * 10 ^ 27). change (10 ^ 27) with 1000000000000000000000000000. clear - M. nia.
  - set (s := 28 + 1 - (ndigits n + 1) / 2) in *. assert (SC : s = 28 \/ s = 27) by (unfold s; lia). clearbody s.
    change (10 ^ (28 - 1)) with (10 ^ 27) in HB.
    assert (CY : h < 10 ^ 28 \/ h = 10 * (h / 10)) by (destruct (Z.lt_ge_cases h (10 ^ 28)) as [|G]; [now left|right; assert (h = 10 ^ 28) as -> by lia; reflexivity]).
    assert (VB : forall V, V = (if s =? 28 then h else 10 * h) -> 10 ^ 26 < V /\ (V - 20) * (V - 20) <= n * 10 ^ 54 <= (V + 20) * (V + 20)).
    { intros V ->. clear FIN E CY. destruct SC as [-> | ->].
      - change (28 =? 28) with true. cbv iota. change (100 ^ 28) with (100 * 10 ^ 54) in HR. split; [change (10 ^ 27) with (10 * 10 ^ 26) in HB; lia|]. set (T := 10 ^ 54) in *. clearbody T. assert (1000 <= h) by lia. clear - HR H0. nia.
      - change (27 =? 28) with false. cbv iota. change (100 ^ 27) with (10 ^ 54) in HR. split; [lia|]. set (T := 10 ^ 54) in *. clearbody T. assert (1000 <= h) by lia. clear - HR H0. nia. }
    destruct (h <? 10 ^ 28) eqn:HL.
    + destruct (VB (scaled 27 h (1 - s))) as [V1 V2]; [unfold scaled; destruct SC as [-> | ->]; [change (10 ^ (27 + (1 - 28))) with 1|change (10 ^ (27 + (1 - 27))) with 10]; cbn [Z.eqb Pos.eqb]; lia|].
      apply (FIN h (1 - s) E); [lia|lia|exact V1|exact V2].
    + assert (G : h = 10 * (h / 10)) by lia.
      destruct (VB (scaled 27 (h / 10) (2 - s))) as [V1 V2]; [unfold scaled; destruct SC as [-> | ->]; [change (10 ^ (27 + (2 - 28))) with 10|change (10 ^ (27 + (2 - 27))) with 100]; cbn [Z.eqb Pos.eqb]; lia|].
      apply (FIN (h / 10) (2 - s) E); [lia|lia|exact V1|exact V2].
Qed.

Lemma dec_round_zero p g x : 1 <= p -> dec_round p (Dec g 0 x) = Dec g 0 x.
Proof. intros H. unfold dec_round. cbn [d_coef]. change (ndigits 0) with 1. replace (1 - p <=? 0) with true by lia. reflexivity. Qed.

(** A term: 10^27 times as large, within 80000 units of the root of [P]. *)
Definition near (W P : Z) : Prop := 0 <= P /\ 0 <= W <= 10 ^ 32 /\ (W <= 80000 \/ (W - 80000) * (W - 80000) <= P) /\ P <= (W + 80000) * (W + 80000).
Lemma term_near a n : Z.abs a <= 1665 -> 0 <= n <= 1665 -> exists g c x,
  dec_times 28 (dec_int a) (dec_root 28 n) = Dec g c x /\ g = (a <? 0) /\ -27 <= x /\ 0 <= c /\ (a * n = 0 -> c = 0) /\
  near (scaled 27 c x) (a * a * n * 10 ^ 54).
Proof.
  intros HA HN. destruct (root_fact n HN) as (c & x & E & X & C & Z0 & NZ). rewrite E. unfold dec_times, dec_int. cbn [d_neg d_coef d_exp].
  rewrite xorb_false_r. rewrite Z.add_0_l.
  destruct (Z.eq_dec (Z.abs a * c) 0) as [AC|AC].
  - rewrite AC, dec_round_zero by lia. exists (a <? 0), 0, x. split; [reflexivity|]. split; [reflexivity|]. split; [exact X|]. split; [lia|]. split; [reflexivity|].
    replace (a * a * n * 10 ^ 54) with 0.
    + unfold near, scaled. rewrite Z.mul_0_l. lia.
    + destruct (Z.eq_dec a 0) as [->|NA]; [ring|]. destruct (Z.eq_dec n 0) as [->|NN]; [ring|]. destruct (NZ NN) as [B _]. unfold scaled in B. assert (c = 0) by lia. subst c. rewrite Z.mul_0_l in B. lia.
  - assert (NN : n <> 0) by (intros ->; rewrite (Z0 eq_refl) in AC; lia). assert (NA : a <> 0) by lia. specialize (NZ NN). cbv zeta in NZ. destruct NZ as [B [S1 S2]].
    destruct (dec_round_rel 28 (a <? 0) (Z.abs a * c) x ltac:(lia) ltac:(lia)) as (c' & x' & E' & C' & L & R).
    exists (a <? 0), c', x'. split; [exact E'|]. split; [reflexivity|]. split; [lia|]. split; [lia|]. split; [intros Q; apply Z.mul_eq_0 in Q; lia|].
    rewrite (scaled_up 27 c' x x') by lia. unfold scaled in B, S1, S2. set (p := 10 ^ (27 + x)) in *. pose proof (pow10_pos (27 + x) ltac:(lia)) as PP. fold p in PP.
    set (w := c' * 10 ^ (x' - x)) in *. set (V := c * p) in *. change (28 - 1) with 27 in R.
    assert (R2 : 2 * 10 ^ 27 * Z.abs (w * p - Z.abs a * V) <= Z.abs a * V).
    { unfold V. rewrite Z.mul_assoc. rewrite <- Z.mul_sub_distr_r, Z.abs_mul, (Z.abs_eq p), Z.mul_assoc by lia. apply Z.mul_le_mono_nonneg_r; lia. }
    assert (WP : 0 <= w * p) by (unfold w; pose proof (pow10_pos (x' - x) ltac:(lia)); nia).
    set (W := w * p) in *. clearbody W V. clear - HA NA HN B S1 S2 R2 WP.
    replace (a * a * n * 10 ^ 54) with (Z.abs a * Z.abs a * (n * 10 ^ 54)) by (rewrite <- Z.abs_mul, (Z.abs_eq (a * a)) by nia; ring).
    assert (A1 : 1 <= Z.abs a) by lia. set (b := Z.abs a) in *. clearbody b. clear NA a. set (N := n * 10 ^ 54) in *. clearbody N. clear HN n.
    assert (BV : b * V <= 1665 * (41 * 10 ^ 27)) by nia.
    assert (D : Z.abs (W - b * V) <= 35000) by (change (10 ^ 27) with 1000000000000000000000000000 in *; lia).
    assert (V1 : 20 < V) by (change (10 ^ 26) with 100000000000000000000000000 in B; lia).
    change (10 ^ 27) with 1000000000000000000000000000 in *. change (10 ^ 26) with 100000000000000000000000000 in *. unfold near. change (10 ^ 32) with 100000000000000000000000000000000.
    split; [apply Z.le_trans with (b * b * ((V - 20) * (V - 20))); [apply Z.mul_nonneg_nonneg; nia|apply Z.mul_le_mono_nonneg_l; [nia|exact S1]]|]. split; [lia|]. split.
    + right. apply Z.le_trans with ((b * (V - 20)) * (b * (V - 20))).
      * assert (W - 80000 <= b * (V - 20)) by lia. assert (0 <= W - 80000) by nia. apply Z.mul_le_mono_nonneg; lia.
      * replace (b * (V - 20) * (b * (V - 20))) with (b * b * ((V - 20) * (V - 20))) by ring. apply Z.mul_le_mono_nonneg_l; [nia|exact S1].
    + apply Z.le_trans with ((b * (V + 20)) * (b * (V + 20))).
      * replace (b * (V + 20) * (b * (V + 20))) with (b * b * ((V + 20) * (V + 20))) by ring. apply Z.mul_le_mono_nonneg_l; [nia|exact S2].
      * assert (b * (V + 20) <= W + 80000) by lia. assert (0 <= b * (V + 20)) by nia. apply Z.mul_le_mono_nonneg; lia.
Qed.
(** Squares that differ by 10^54 have roots in the same order. *)
Lemma near_order W1 P1 W2 P2 : near W1 P1 -> near W2 P2 -> P2 + 10 ^ 54 <= P1 -> W2 < W1.
Proof.
  unfold near. change (10 ^ 54) with 1000000000000000000000000000000000000000000000000000000. change (10 ^ 32) with 100000000000000000000000000000000. intros (A0 & A1 & A2 & A3) (B0 & B1 & B2 & B3) G.
  destruct (Z.lt_ge_cases W2 W1) as [|L]; auto. exfalso.
  assert (P1 <= (W2 + 80000) * (W2 + 80000)) by (apply Z.le_trans with (1 := A3); apply Z.mul_le_mono_nonneg; lia).
  destruct B2 as [B2|B2]; [|lia].
  assert ((W2 + 80000) * (W2 + 80000) <= 160000 * 160000) by (apply Z.mul_le_mono_nonneg; lia).
  lia.
Qed.

Lemma signed_scaled x e : -27 <= e -> e <= d_exp x -> signed_coef x e * 10 ^ (27 + e) = (if d_neg x then -1 else 1) * scaled 27 (d_coef x) (d_exp x).
Proof.
  intros H L. unfold signed_coef, scaled. replace (27 + d_exp x) with (d_exp x - e + (27 + e)) by lia. rewrite (Z.pow_add_r 10 (d_exp x - e)) by lia. ring.
Qed.
(** The sum has the sign of the sum of the terms. *)
Lemma plus_sign x y : -27 <= d_exp x -> -27 <= d_exp y ->
  let S := (if d_neg x then -1 else 1) * scaled 27 (d_coef x) (d_exp x) + (if d_neg y then -1 else 1) * scaled 27 (d_coef y) (d_exp y) in
  exists g c e, dec_plus 28 x y = Dec g c e /\ (S = 0 -> c = 0) /\ (S <> 0 -> g = (S <? 0) /\ 0 < c < 10 ^ 28).
Proof.
  intros HX HY S. unfold dec_plus. cbv zeta. set (e := Z.min (d_exp x) (d_exp y)). assert (E : -27 <= e) by lia.
  pose proof (signed_scaled x e E ltac:(lia)) as A. pose proof (signed_scaled y e E ltac:(lia)) as B. set (s := signed_coef x e + signed_coef y e).
  assert (SS : s * 10 ^ (27 + e) = S) by (unfold s, S; lia). clearbody S s. pose proof (pow10_pos (27 + e) ltac:(lia)) as P. clear A B.
  destruct (Z.eq_dec s 0) as [->|N].
  - cbn [Z.abs]. rewrite dec_round_zero by lia. do 3 eexists. split; [reflexivity|]. split; [reflexivity|]. lia.
  - replace (s =? 0) with false by lia.
    destruct (dec_round_rel 28 (s <? 0) (Z.abs s) e ltac:(lia) ltac:(lia)) as (c' & e' & Q & C & _). exists (s <? 0), c', e'. split; [exact Q|].
    set (p := 10 ^ (27 + e)) in *. clearbody p. split; [nia|]. intros NS. split; [|exact C]. destruct (s <? 0) eqn:K; symmetry; nia.
Qed.
(** A quotient by a small number has the sign of the dividend. *)
Lemma over_sign g c e n : 0 <= c < 10 ^ 28 -> 0 < n -> exists c' e', dec_over 28 (Dec g c e) (dec_int n) = Dec g c' e' /\ (c = 0 -> c' = 0) /\ (0 < c -> 0 < c').
Proof.
  intros C N. unfold dec_over, dec_int. cbn [d_neg d_coef d_exp]. replace (n <? 0) with false by lia. rewrite xorb_false_r, (Z.abs_eq n) by lia.
  destruct (Z.eq_dec c 0) as [->|NC].
  - cbn [Z.eqb]. do 2 eexists. split; [reflexivity|]. lia.
  - replace (c =? 0) with false by lia. cbv zeta. destruct (ndigits_spec c ltac:(lia)) as [B1 L1]. destruct (ndigits_spec n N) as [B2 L2].
    pose proof (ndigits_le c 28 ltac:(lia) ltac:(lia)) as ND. set (sh := ndigits n - ndigits c + 28 + 1). assert (SH : 2 <= sh) by (unfold sh; lia).
    replace (0 <=? sh) with true by lia. set (num := c * 10 ^ sh). pose proof (pow10_pos sh ltac:(lia)) as PS.
    assert (Q1 : n <= num).
    { unfold num. assert (E : 10 ^ (ndigits c - 1) * 10 ^ sh = 10 ^ ndigits n * 10 ^ 28) by (rewrite <- !Z.pow_add_r by lia; f_equal; unfold sh; lia).
      pose proof (pow10_pos 28 ltac:(lia)). nia. }
    assert (QP : 0 < num / n) by (apply Z.div_str_pos; lia). set (q := num / n) in *.
    assert (FIN : forall c0 e0, 0 < c0 -> exists c' e', dec_round 28 (Dec g c0 e0) = Dec g c' e' /\ (c = 0 -> c' = 0) /\ (0 < c -> 0 < c')).
    { intros c0 e0 C0. destruct (dec_round_rel 28 g c0 e0 ltac:(lia) C0) as (c' & e' & E & B & _). exists c', e'. split; [exact E|]. split; lia. }
    destruct (num mod n =? 0).
    + destruct (strip_zeros_spec (Z.to_nat sh) q (- sh) QP) as (j & J & SN & FS & FP). destruct (strip_zeros (Z.to_nat sh) q (- sh)) as [c0 e0]. cbn [fst] in FP. now apply FIN.
    + destruct (q mod 5 =? 0); apply FIN; lia.
Qed.
(** Components read from nine bytes, whatever they are. *)
Lemma comps_bound d : length d = 9%nat -> wf_bytes d -> exists ls lr rs rr e, radical_comps (Buf true d) = Ok (ls, lr, rs, rr, e) /\
  Z.abs ls <= 1665 /\ 0 <= lr <= 1665 /\ Z.abs rs <= 1665 /\ 0 <= rr <= 1665 /\ 0 <= e <= 1665.
Proof.
  intros L W. do 9 (destruct d as [|? d]; [discriminate|]). destruct d; [|discriminate].
  assert (LB : forall a b, is_byte a -> is_byte b -> 0 <= a mod 16 * 100 + bcd_byte b <= 1665) by (intros a b A B; unfold is_byte, bcd_byte in *; lia).
  assert (RB : forall a b, is_byte a -> is_byte b -> 0 <= 10 * bcd_byte a + b / 16 <= 1665) by (intros a b A B; unfold is_byte, bcd_byte in *; lia).
  unfold wf_bytes in W. repeat match goal with H : Forall _ (_ :: _) |- _ => inversion_clear H end.
  unfold radical_comps, signed_left_scalar, signed_right_scalar.
  set (B := Buf true [z; z0; z1; z2; z3; z4; z5; z6; z7]).
  assert (ST : exists s, get_sign_type B = Ok s) by (eexists; reflexivity). destruct ST as [s ST]. rewrite ST.
  replace (get_left_scalar B) with (Ok (z3 mod 16 * 100 + bcd_byte z4)) by reflexivity.
  replace (get_left_radicand B) with (Ok (z6 mod 16 * 100 + bcd_byte z7)) by reflexivity.
  replace (get_right_scalar B) with (Ok (10 * bcd_byte z2 + z3 / 16)) by reflexivity.
  replace (get_right_radicand B) with (Ok (10 * bcd_byte z5 + z6 / 16)) by reflexivity.
  replace (get_denominator B) with (Ok (z0 mod 16 * 100 + bcd_byte z1)) by reflexivity.
  cbn [rbind]. do 5 eexists. split; [reflexivity|].
  pose proof (LB z3 z4 ltac:(assumption) ltac:(assumption)). pose proof (LB z6 z7 ltac:(assumption) ltac:(assumption)). pose proof (LB z0 z1 ltac:(assumption) ltac:(assumption)).
  pose proof (RB z2 z3 ltac:(assumption) ltac:(assumption)). pose proof (RB z5 z6 ltac:(assumption) ltac:(assumption)).
  clear LB RB. destruct (Z.land s 1 =? 0); destruct (Z.land s 2 =? 0); lia.
Qed.
