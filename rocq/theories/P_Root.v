(** C154: the decimal value of a radical. *)
From Verif Require Import L_Base M_Data M_Numeric M_Class M_Var M_Real M_Complex M_List M_Text M_RadDec S_Data L_Data S_Real L_Real L_Frac L_Pi L_RadDec P_RadDec.

(** [c * 10 ^ e] is within half a unit of its last digit of the root of [n]. *)
Definition nearest_root (c e n : Z) : Prop :=
  (2 * c - 1) * (2 * c - 1) * 100 ^ Z.max e 0 < 4 * n * 100 ^ Z.max (- e) 0 < (2 * c + 1) * (2 * c + 1) * 100 ^ Z.max e 0.
Lemma nearest_of h s n : 1 <= s -> 0 < h -> (10 * h - 5) * (10 * h - 5) < n * 100 ^ s < (10 * h + 5) * (10 * h + 5) -> nearest_root h (1 - s) n.
Proof.
  intros S H R. unfold nearest_root. replace (Z.max (1 - s) 0) with 0 by lia. replace (Z.max (- (1 - s)) 0) with (s - 1) by lia. change (100 ^ 0) with 1.
  replace s with (1 + (s - 1)) in R by lia. rewrite Z.pow_add_r in R by lia. change (100 ^ 1) with 100 in R. set (t := 100 ^ (s - 1)) in *. clearbody t. lia.
Qed.
Lemma nearest_carry c s n : 1 <= s -> 0 < c -> nearest_root (10 * c) (1 - s) n -> nearest_root c (2 - s) n.
Proof.
  intros S C. unfold nearest_root. replace (Z.max (1 - s) 0) with 0 by lia. replace (Z.max (- (1 - s)) 0) with (s - 1) by lia. change (100 ^ 0) with 1.
  destruct (Z.eq_dec s 1) as [->|N].
  - cbn [Z.max Z.sub Z.opp Z.compare Z.add Pos.add Pos.compare]. change (Z.max (2 - 1) 0) with 1. change (Z.max (- (2 - 1)) 0) with 0. change (1 - 1) with 0. change (100 ^ 0) with 1. change (100 ^ 1) with 100. nia.
  - replace (Z.max (2 - s) 0) with 0 by lia. replace (Z.max (- (2 - s)) 0) with (s - 2) by lia. change (100 ^ 0) with 1. replace (s - 1) with (1 + (s - 2)) by lia. rewrite Z.pow_add_r by lia. change (100 ^ 1) with 100.
    set (t := 100 ^ (s - 2)). clearbody t. nia.
Qed.
(** A root of at most [p] digits is exact, any other correctly rounded. *)
Theorem C154_root : forall p n, 1 <= p -> 0 < n < 10 ^ (2 * p) -> exists c e, dec_root p n = Dec false c e /\ 0 < c < 10 ^ p /\
  ((c * c = n /\ e = 0) \/ (10 ^ (p - 1) <= c /\ nearest_root c e n)).
Proof.
  intros p n P N. pose proof (digits_within (2 * p) n ltac:(lia) ltac:(lia)) as D. destruct (root_rounded p n P ltac:(lia) D) as [(m & M & E & R)|(S & h & HB & HR & R)].
  - exists m, 0. auto.
  - set (s := p + 1 - (ndigits n + 1) / 2) in *. pose proof (pow10_pos (p - 1) ltac:(lia)) as PP.
    assert (TQ : 10 ^ p = 10 * 10 ^ (p - 1)) by (replace p with (p - 1 + 1) at 1 by lia; rewrite Z.pow_add_r by lia; lia).
    pose proof (nearest_of h s n S ltac:(lia) HR) as NR. destruct (h <? 10 ^ p) eqn:L.
    + exists h, (1 - s). split; [exact R|]. split; [lia|]. right. split; [lia|exact NR].
    + assert (Eh : h = 10 * 10 ^ (p - 1)) by lia. rewrite Eh in *. assert (Q : 10 * 10 ^ (p - 1) / 10 = 10 ^ (p - 1)) by (rewrite Z.mul_comm; apply Z.div_mul; lia). rewrite Q in R.
      exists (10 ^ (p - 1)), (2 - s). split; [exact R|]. split; [lia|]. right. split; [lia|]. now apply nearest_carry.
Qed.
Print Assumptions C154_root.

(** ** The value *)
Definition sgn (g : bool) : Z := if g then -1 else 1.
(** The sum at scale 27, up to one part in 2 * 10^27. *)
Lemma plus_rel x y : -27 <= d_exp x -> -27 <= d_exp y ->
  let S := sgn (d_neg x) * scaled 27 (d_coef x) (d_exp x) + sgn (d_neg y) * scaled 27 (d_coef y) (d_exp y) in
  exists g c e, dec_plus 28 x y = Dec g c e /\ 0 <= c < 10 ^ 28 /\ -27 <= e /\ 2 * 10 ^ 27 * Z.abs (sgn g * scaled 27 c e - S) <= Z.abs S.
Proof.
  intros HX HY S. unfold dec_plus. cbv zeta. set (e := Z.min (d_exp x) (d_exp y)). assert (E : -27 <= e) by lia.
  pose proof (signed_scaled x e E ltac:(lia)) as A. pose proof (signed_scaled y e E ltac:(lia)) as B. set (s := signed_coef x e + signed_coef y e).
  assert (SS : s * 10 ^ (27 + e) = S) by (unfold s, S, sgn; lia). clearbody S s. pose proof (pow10_pos (27 + e) ltac:(lia)) as P. clear A B.
  destruct (Z.eq_dec s 0) as [->|N].
  - cbn [Z.abs]. rewrite dec_round_zero by lia. do 3 eexists. split; [reflexivity|]. split; [lia|]. split; [exact E|]. unfold scaled. rewrite <- SS. rewrite !Z.mul_0_l, Z.mul_0_r. cbn. lia.
  - replace (s =? 0) with false by lia.
    destruct (dec_round_rel 28 (s <? 0) (Z.abs s) e ltac:(lia) ltac:(lia)) as (c' & e' & Q & C & L & R). exists (s <? 0), c', e'. split; [exact Q|]. split; [lia|]. split; [lia|].
    rewrite (scaled_up 27 c' e e') by lia. set (w := c' * 10 ^ (e' - e)) in *. set (p := 10 ^ (27 + e)) in *. change (28 - 1) with 27 in R. clearbody w p.
    assert (Q1 : Z.abs (sgn (s <? 0) * (w * p) - S) = Z.abs (w - Z.abs s) * p).
    { rewrite <- SS. rewrite <- (Z.abs_eq p) at 3 by lia. rewrite <- Z.abs_mul. unfold sgn. destruct (s <? 0) eqn:K.
      - rewrite (Z.abs_neq s) by lia. rewrite <- Z.abs_opp. f_equal. ring.
      - rewrite (Z.abs_eq s) by lia. f_equal. ring. }
    rewrite Q1. rewrite <- SS, Z.abs_mul, (Z.abs_eq p) by lia. rewrite Z.mul_assoc. apply Z.mul_le_mono_nonneg_r; lia.
Qed.
(** The quotient by a whole number at scale 60, up to one part in 10^27. *)
Lemma int_over_rel g c e n : 0 <= c < 10 ^ 28 -> -27 <= e -> 0 < n < 10000 -> exists c' e',
  dec_over 28 (Dec g c e) (dec_int n) = Dec g c' e' /\ 0 <= c' /\ -60 <= e' /\ 10 ^ 27 * Z.abs (n * scaled 60 c' e' - scaled 60 c e) <= scaled 60 c e.
Proof.
  intros C X N. unfold dec_over, dec_int. cbn [d_neg d_coef d_exp]. replace (n <? 0) with false by lia. rewrite xorb_false_r, (Z.abs_eq n) by lia. rewrite Z.sub_0_r.
  destruct (Z.eq_dec c 0) as [->|NC].
  - cbn [Z.eqb]. do 2 eexists. split; [reflexivity|]. split; [lia|]. split; [lia|]. unfold scaled. rewrite !Z.mul_0_l, Z.mul_0_r. cbn. lia.
  - replace (c =? 0) with false by lia. cbv zeta. destruct (ndigits_spec c ltac:(lia)) as [B1 L1]. destruct (ndigits_spec n ltac:(lia)) as [B2 L2].
    pose proof (digits_within 28 c ltac:(lia) ltac:(lia)) as ND. pose proof (digits_within 4 n ltac:(lia) ltac:(change (10 ^ 4) with 10000; lia)) as NN.
    set (sh := ndigits n - ndigits c + 28 + 1). assert (SH : 2 <= sh <= 32) by (unfold sh; lia).
    replace (0 <=? sh) with true by lia. set (num := c * 10 ^ sh). pose proof (pow10_pos sh ltac:(lia)) as PS.
    assert (Q1 : n * 10 ^ 28 <= num).
    { unfold num. assert (E : 10 ^ (ndigits c - 1) * 10 ^ sh = 10 ^ ndigits n * 10 ^ 28) by (rewrite <- !Z.pow_add_r by lia; f_equal; unfold sh; lia).
      pose proof (pow10_pos 28 ltac:(lia)). clear - E H B1 B2 PS. nia. }
    pose proof (Z.div_mod num n ltac:(lia)) as DM. pose proof (Z.mod_pos_bound num n ltac:(lia)) as MB. set (q := num / n) in *.
    assert (QP : 0 < q) by (unfold q; apply Z.div_str_pos; lia).
    assert (FIN : forall q' c0 j, 0 < c0 -> 0 <= j -> c0 * 10 ^ j = q' -> Z.abs (n * q' - num) <= n ->
      exists c' e', dec_round 28 (Dec g c0 (e - sh + j)) = Dec g c' e' /\ 0 <= c' /\ -60 <= e' /\ 10 ^ 27 * Z.abs (n * scaled 60 c' e' - scaled 60 c e) <= scaled 60 c e).
    { intros q' c0 j C0 J EQ NEAR. destruct (dec_round_rel 28 g c0 (e - sh + j) ltac:(lia) C0) as (c' & e' & E & B' & L' & R).
      exists c', e'. split; [exact E|]. split; [lia|]. split; [lia|]. rewrite (scaled_up 60 c' (e - sh + j) e') by lia.
      set (w := c' * 10 ^ (e' - (e - sh + j))) in *. change (28 - 1) with 27 in R.
      replace (10 ^ (60 + (e - sh + j))) with (10 ^ j * 10 ^ (60 + (e - sh))) by (rewrite <- Z.pow_add_r by lia; f_equal; lia).
      pose proof (pow10_pos j J) as PJ. pose proof (pow10_pos (60 + (e - sh)) ltac:(lia)) as PG.
      assert (EX : scaled 60 c e = num * 10 ^ (60 + (e - sh))) by (unfold scaled, num; rewrite <- Z.mul_assoc, <- Z.pow_add_r by lia; do 2 f_equal; lia).
      rewrite EX. set (u := 10 ^ (60 + (e - sh))) in *. set (y := 10 ^ j) in *. clearbody w u y.
      assert (R2 : 2 * 10 ^ 27 * Z.abs (w * y - q') <= q').
      { rewrite <- EQ. rewrite <- Z.mul_sub_distr_r, Z.abs_mul, (Z.abs_eq y) by lia. rewrite Z.mul_assoc. apply Z.mul_le_mono_nonneg_r; lia. }
      assert (R3 : 10 ^ 27 * Z.abs (n * (w * y) - num) <= num).
      { set (t := w * y) in *. clearbody t num. assert (T : 2 * 10 ^ 27 * Z.abs (n * t - n * q') <= n * q') by (rewrite <- Z.mul_sub_distr_l, Z.abs_mul, (Z.abs_eq n) by lia; clear - R2 N; nia).
        set (a := n * t) in *. set (b := n * q') in *. clearbody a b. change (10 ^ 28) with 10000000000000000000000000000 in Q1. change (10 ^ 27) with 1000000000000000000000000000 in *. clear - T NEAR Q1 N. lia. }
      replace (n * (w * (y * u)) - num * u) with ((n * (w * y) - num) * u) by ring. rewrite Z.abs_mul, (Z.abs_eq u), Z.mul_assoc by lia. apply Z.mul_le_mono_nonneg_r; lia. }
    destruct (num mod n =? 0) eqn:M.
    + apply Z.eqb_eq in M. destruct (strip_zeros_spec (Z.to_nat sh) q (- sh) QP) as (j & J & SN & FS & FP). destruct (strip_zeros (Z.to_nat sh) q (- sh)) as [c0 e0]. cbn [fst snd] in FP, SN, FS.
      rewrite SN. replace (e + (- sh + j)) with (e - sh + j) by lia. apply (FIN q); auto. lia.
    + apply Z.eqb_neq in M. replace (e - sh) with (e - sh + 0) by lia. destruct (q mod 5 =? 0); eapply FIN; try reflexivity; try lia; change (10 ^ 0) with 1; rewrite Z.mul_1_r; lia.
Qed.
(** [u] is 10^27 times the root of [P], up to 80000. *)
Definition about_root (u P : Z) : Prop := 0 <= u /\ (u <= 80000 \/ (u - 80000) * (u - 80000) <= P * 10 ^ 54) /\ P * 10 ^ 54 <= (u + 80000) * (u + 80000).
(** The denominator times the value is within 400000 * 10^-27 of the sum of the terms;
    everything is 10^60 times as large. *)
Theorem C154_value : forall ls lr rs rr e, Z.abs ls <= 1665 -> 0 <= lr <= 1665 -> Z.abs rs <= 1665 -> 0 <= rr <= 1665 -> 0 < e < 10000 ->
  exists g c x u v, radical_value ls lr rs rr e = Ok (Dec g c x) /\ -60 <= x /\ 0 <= c /\
    about_root u (ls * ls * lr) /\ about_root v (rs * rs * rr) /\
    Z.abs (e * (sgn g * (c * 10 ^ (60 + x))) - (sgn (ls <? 0) * u + sgn (rs <? 0) * v) * 10 ^ 33) <= 400000 * 10 ^ 33.
Proof.
  intros ls lr rs rr e H1 H2 H3 H4 HE. unfold radical_value. replace (e =? 0) with false by lia.
  destruct (term_near ls lr H1 H2) as (g1 & c1 & x1 & E1 & G1 & X1 & C1 & Z1 & N1). destruct (term_near rs rr H3 H4) as (g2 & c2 & x2 & E2 & G2 & X2 & C2 & Z2 & N2).
  rewrite E1, E2. destruct (plus_rel (Dec g1 c1 x1) (Dec g2 c2 x2) X1 X2) as (g & c & x & E & CB & XB & R). rewrite E. cbn [d_neg d_coef d_exp] in R.
  destruct (int_over_rel g c x e CB XB HE) as (c' & x' & EO & CP & XP & RO). exists g, c', x', (scaled 27 c1 x1), (scaled 27 c2 x2).
  split; [now rewrite EO|]. split; [exact XP|]. split; [exact CP|]. unfold near in N1, N2. destruct N1 as (_ & W1 & A1 & B1). destruct N2 as (_ & W2 & A2 & B2).
  split; [repeat split; [lia|exact A1|exact B1]|]. split; [repeat split; [lia|exact A2|exact B2]|].
  fold (scaled 60 c' x'). rewrite <- G1, <- G2. clear A1 A2 B1 B2 E1 E2 EO E. assert (SC : scaled 60 c x = scaled 27 c x * 10 ^ 33) by (unfold scaled; rewrite <- Z.mul_assoc, <- Z.pow_add_r by lia; do 2 f_equal; lia).
  rewrite SC in RO. assert (WP : 0 <= scaled 27 c x) by (unfold scaled; apply Z.mul_nonneg_nonneg; [lia|apply Z.pow_nonneg; lia]).
  set (u := scaled 27 c1 x1) in *. set (v := scaled 27 c2 x2) in *. set (w := scaled 27 c x) in *. set (d := scaled 60 c' x') in *. clearbody u v w d.
  set (S := sgn g1 * u + sgn g2 * v) in *. assert (SB : Z.abs S <= 2 * 10 ^ 32) by (unfold S, sgn; destruct g1, g2; lia). clearbody S. clear - R RO SB WP.
  assert (D1 : Z.abs (sgn g * w - S) <= 100000) by (change (10 ^ 32) with 100000000000000000000000000000000 in SB; change (10 ^ 27) with 1000000000000000000000000000 in R; lia).
  assert (WB : w <= 2 * 10 ^ 32 + 100000) by (unfold sgn in D1; destruct g; lia).
  assert (D2 : Z.abs (e * d - w * 10 ^ 33) <= 200001 * 10 ^ 33).
  { change (10 ^ 27) with 1000000000000000000000000000 in RO. change (10 ^ 32) with 100000000000000000000000000000000 in WB. change (10 ^ 33) with 1000000000000000000000000000000000 in *. set (a := e * d) in *. clearbody a. clear - RO WB WP. lia. }
  set (a := e * d) in *. replace (e * (sgn g * d)) with (sgn g * a) by (unfold a; ring). clearbody a. change (10 ^ 33) with 1000000000000000000000000000000000 in *. clear - D1 D2. unfold sgn in *. destruct g; lia.
Qed.
(** The same of every payload of nine bytes. *)
Theorem C154_decimal : forall d, length d = 9%nat -> wf_bytes d -> exists ls lr rs rr e, radical_comps (Buf true d) = Ok (ls, lr, rs, rr, e) /\
  (e = 0 -> radical_decimal (Buf true d) = Err ZeroDivisionError) /\
  (e <> 0 -> exists g c x u v, radical_decimal (Buf true d) = Ok (Dec g c x) /\ -60 <= x /\ 0 <= c /\ about_root u (ls * ls * lr) /\ about_root v (rs * rs * rr) /\
    Z.abs (e * (sgn g * (c * 10 ^ (60 + x))) - (sgn (ls <? 0) * u + sgn (rs <? 0) * v) * 10 ^ 33) <= 400000 * 10 ^ 33).
Proof.
  intros d L W. destruct (comps_bound d L W) as (ls & lr & rs & rr & e & E & B1 & B2 & B3 & B4 & B5). exists ls, lr, rs, rr, e. split; [exact E|]. unfold radical_decimal. rewrite E. cbn [rbind]. split.
  - intros ->. reflexivity.
  - intros N. apply C154_value; auto. lia.
Qed.
Print Assumptions C154_value.
Print Assumptions C154_decimal.
(** The root of 2 and of 144; and (3 - 2√7)/5, which is -0.4583... *)
Example C154_example : dec_root 28 2 = Dec false 1414213562373095048801688724 (-27) /\ nearest_root 1414213562373095048801688724 (-27) 2 /\ dec_root 28 144 = Dec false 12 0 /\
  radical_value 3 1 (-2) 7 5 = Ok (Dec true 4583005244258362362006463016 (-28)) /\
  about_root (3 * 10 ^ 27) 9 /\ about_root 5291502622129181181003231507 28.
Proof. unfold nearest_root, about_root. split; [vm_compute; reflexivity|]. split; [split; vm_compute; reflexivity|]. split; [vm_compute; reflexivity|]. split; [vm_compute; reflexivity|]. repeat split; try (right; vm_compute; discriminate); vm_compute; discriminate. Qed.
