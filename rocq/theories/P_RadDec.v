(** C146: the sign of a radical. *)
From Verif Require Import L_Base M_Data M_Numeric M_Class M_Var M_Real M_Complex M_List M_Text M_RadDec S_Data L_Data S_Real L_Real L_Frac L_Pi L_RadDec.

(** A number with the sign of a√n + b√m: x ↦ x|x| is increasing and odd, so a sum of
    two terms has the sign of the sum of their signed squares. *)
Definition signed_square (a n : Z) : Z := a * Z.abs a * n.
Definition side (a n b m : Z) : Z := signed_square a n + signed_square b m.
(** That this is the sign of the sum: whole numbers on one side of the terms, at any
    scale, add up on the same side of 0. *)
Lemma side_sound a n b m k x y : 0 < k ->
  signed_square a n * (k * k) < x * Z.abs x -> signed_square b m * (k * k) < y * Z.abs y -> x + y <= 0 -> side a n b m < 0.
Proof.
  unfold side. set (p := signed_square a n). set (q := signed_square b m). clearbody p q. intros K A B S.
  assert (x * Z.abs x + y * Z.abs y <= 0) by nia. nia.
Qed.

Lemma zero_product a n : a * a * n = 0 -> a * n = 0.
Proof. intros Q. apply Z.mul_eq_0 in Q as [Q|Q]; [apply Z.mul_eq_0 in Q|]; nia. Qed.
Lemma zero_product' a n : a * n = 0 -> a * a * n = 0.
Proof. intros Q. rewrite <- Z.mul_assoc, Q. ring. Qed.
Lemma signed_square_mono x y : x < y -> x * Z.abs x < y * Z.abs y.
Proof. intros H. destruct (Z.le_gt_cases 0 x); [rewrite (Z.abs_eq x), (Z.abs_eq y) by lia; nia|]. rewrite (Z.abs_neq x) by lia. destruct (Z.le_gt_cases 0 y); [rewrite (Z.abs_eq y) by lia|rewrite (Z.abs_neq y) by lia]; nia. Qed.
Lemma opposite a b n : 0 < n -> (if a <? 0 then - (a * a * n) else a * a * n) + (if b <? 0 then - (b * b * n) else b * b * n) = 0 -> a = - b.
Proof.
  intros N H. assert (E : (a * Z.abs a + b * Z.abs b) * n = 0).
  { destruct (a <? 0) eqn:A; [rewrite (Z.abs_neq a) by lia|rewrite (Z.abs_eq a) by lia]; (destruct (b <? 0) eqn:B; [rewrite (Z.abs_neq b) by lia|rewrite (Z.abs_eq b) by lia]); lia. }
  apply Z.mul_eq_0 in E as [E|E]; [|lia]. clear H N n. assert (a = - b \/ a < - b \/ - b < a) as [|[Q|Q]] by lia; [assumption| |]; apply signed_square_mono in Q; rewrite Z.abs_opp in Q; lia.
Qed.
Lemma square_roots : forallb (fun k => let m := Z.of_nat k in match dec_root 28 (m * m) with Dec false c 0 => c =? m | _ => false end) (seq 0 41) = true.
Proof. vm_compute. reflexivity. Qed.
Lemma square_term a m : Z.abs a <= 1665 -> 0 <= m <= 40 -> dec_times 28 (dec_int a) (dec_root 28 (m * m)) = Dec (a <? 0) (Z.abs a * m) 0.
Proof.
  intros A M. pose proof (proj1 (forallb_forall _ _) square_roots (Z.to_nat m) ltac:(apply in_seq; lia)) as R. cbv beta zeta in R. rewrite Z2Nat.id in R by lia.
  destruct (dec_root 28 (m * m)) as [[|] c [| |]]; try discriminate. apply Z.eqb_eq in R. subst c. unfold dec_times, dec_int. cbn [d_neg d_coef d_exp]. rewrite xorb_false_r. change (0 + 0) with 0.
  destruct (Z.eq_dec (Z.abs a * m) 0) as [Q|Q]; [now rewrite Q, dec_round_zero by lia|]. unfold dec_round. cbn [d_coef].
  assert (N : 0 <= Z.abs a * m < 10 ^ Z.of_nat 28) by (change (10 ^ Z.of_nat 28) with 10000000000000000000000000000; clear - A M; nia).
  pose proof (ndigits_le _ 28 N ltac:(lia)) as D. replace (ndigits (Z.abs a * m) - 28 <=? 0) with true by lia. reflexivity.
Qed.
Lemma value_sign ls lr rs rr e : Z.abs ls <= 1665 -> 0 <= lr <= 1665 -> Z.abs rs <= 1665 -> 0 <= rr <= 1665 -> 0 < e ->
  exists x, radical_value ls lr rs rr e = Ok x /\
    (side ls lr rs rr <> 0 -> 0 < d_coef x /\ d_neg x = (side ls lr rs rr <? 0)) /\
    (side ls lr rs rr = 0 -> lr = rr \/ ls * lr = 0 \/ (exists m m', 0 <= m <= 40 /\ 0 <= m' <= 40 /\ lr = m * m /\ rr = m' * m') -> d_coef x = 0).
Proof.
  intros H1 H2 H3 H4 HE. unfold radical_value. replace (e =? 0) with false by lia.
  destruct (term_near ls lr H1 H2) as (g1 & c1 & x1 & E1 & G1 & X1 & C1 & Z1 & N1). destruct (term_near rs rr H3 H4) as (g2 & c2 & x2 & E2 & G2 & X2 & C2 & Z2 & N2).
  assert (SAME : lr = rr -> ls = - rs -> c1 = c2 /\ x1 = x2).
  { intros -> ->. revert E1 E2. unfold dec_times, dec_int. cbn [d_neg d_coef d_exp]. rewrite Z.abs_opp. unfold dec_round. cbn [d_neg d_coef d_exp]. cbv zeta.
    destruct (ndigits (Z.abs rs * d_coef (dec_root 28 rr)) - 28 <=? 0); [intros Q R; injection Q; injection R; intros; subst; auto|].
    match goal with |- context [if ?b then _ else _] => destruct b end; intros Q R; injection Q; injection R; intros; subst; auto. }
  rewrite E1, E2. destruct (plus_sign (Dec g1 c1 x1) (Dec g2 c2 x2) X1 X2) as (g & c & x & E & SZ & SN). rewrite E. cbn [d_neg d_coef d_exp] in SZ, SN.
  set (W1 := scaled 27 c1 x1) in *. set (W2 := scaled 27 c2 x2) in *.
  set (S := (if g1 then -1 else 1) * W1 + (if g2 then -1 else 1) * W2) in *.
  assert (CB : 0 <= c < 10 ^ 28) by (destruct (Z.eq_dec S 0) as [Q|Q]; [rewrite (SZ Q); lia|apply SN in Q; lia]).
  destruct (over_sign g c x e CB HE) as (c' & e' & EO & O0 & OP). exists (Dec g c' e'). rewrite EO. split; [reflexivity|]. cbn [d_coef d_neg].
  assert (Z0 : near 0 0) by (unfold near; lia).
  pose proof (near_order W1 _ W2 _ N1 N2) as O12. pose proof (near_order W2 _ W1 _ N2 N1) as O21.
  pose proof (near_order W1 _ 0 0 N1 Z0) as O1. pose proof (near_order W2 _ 0 0 N2 Z0) as O2.
  assert (B1 : 0 <= W1) by apply N1. assert (B2 : 0 <= W2) by apply N2.
  assert (M1 : 0 <= ls * ls * lr) by (apply Z.mul_nonneg_nonneg; [apply Z.square_nonneg|lia]). assert (M2 : 0 <= rs * rs * rr) by (apply Z.mul_nonneg_nonneg; [apply Z.square_nonneg|lia]).
  assert (V1 : ls * ls * lr = 0 -> W1 = 0).
  { intros Q. unfold W1. rewrite Z1; [unfold scaled; lia|]. apply zero_product in Q. exact Q. }
  assert (V2 : rs * rs * rr = 0 -> W2 = 0).
  { intros Q. unfold W2. rewrite Z2; [unfold scaled; lia|]. apply zero_product in Q. exact Q. }
  assert (D1 : signed_square ls lr = if g1 then - (ls * ls * lr) else ls * ls * lr) by (unfold signed_square; subst g1; destruct (ls <? 0) eqn:K; [rewrite Z.abs_neq by lia|rewrite Z.abs_eq by lia]; ring).
  assert (D2 : signed_square rs rr = if g2 then - (rs * rs * rr) else rs * rs * rr) by (unfold signed_square; subst g2; destruct (rs <? 0) eqn:K; [rewrite Z.abs_neq by lia|rewrite Z.abs_eq by lia]; ring).
  unfold side. rewrite D1, D2. 
  assert (MAIN : forall t, t = (if g1 then - (ls * ls * lr) else ls * ls * lr) + (if g2 then - (rs * rs * rr) else rs * rs * rr) -> (t < 0 -> S < 0) /\ (0 < t -> 0 < S)).
  { set (p1 := ls * ls * lr) in *. set (p2 := rs * rs * rr) in *. clearbody p1 p2 W1 W2. clear - O12 O21 O1 O2 B1 B2 M1 M2 V1 V2.
    assert (T : 0 < 10 ^ 54) by reflexivity. set (K := 10 ^ 54) in *. clearbody K.
    assert (A1 : 0 < p1 -> 0 < W1) by (intros; apply O1; nia). assert (A2 : 0 < p2 -> 0 < W2) by (intros; apply O2; nia).
    assert (A3 : p2 < p1 -> W2 < W1) by (intros; apply O12; nia). assert (A4 : p1 < p2 -> W1 < W2) by (intros; apply O21; nia).
    clear O12 O21 O1 O2. subst S. intros t ->. destruct g1, g2; lia. }
  specialize (MAIN _ eq_refl). set (t := (if g1 then - (ls * ls * lr) else ls * ls * lr) + (if g2 then - (rs * rs * rr) else rs * rs * rr)) in *. split.
  - intros NT. assert (NS : S <> 0) by (clearbody S t; clear - MAIN NT; lia). destruct (SN NS) as [-> CP]. split; [apply OP, CP|]. clearbody S t; clear - MAIN NT; destruct (t <? 0) eqn:Q; lia.
  - intros T0 CASE. apply O0, SZ. destruct CASE as [EQ|[EQ|(m & m' & B & B' & EQ & EQ')]].
    + subst rr. destruct (Z.eq_dec lr 0) as [->|NL].
      * unfold S. rewrite V1, V2 by ring. destruct g1, g2; reflexivity.
      * assert (AB : ls = - rs) by (subst t g1 g2; apply (opposite ls rs lr); [lia|exact T0]).
        destruct (SAME eq_refl AB) as [Q1 Q2]. assert (W1 = W2) as WW by (unfold W1, W2; congruence). unfold S. rewrite WW. subst g1 g2. destruct (Z.eq_dec ls 0) as [Q|Q].
        -- assert (R0 : rs = 0) by (clear - AB Q; lia). rewrite V2 by (rewrite R0; ring). destruct (ls <? 0), (rs <? 0); reflexivity.
        -- replace (rs <? 0) with (negb (ls <? 0)) by (clear - AB Q; lia). destruct (ls <? 0); cbn [negb]; lia.
    + pose proof (zero_product' _ _ EQ) as p1. assert (p2 : rs * rs * rr = 0) by (unfold t in T0; rewrite p1 in T0; clear - T0; destruct g1, g2; lia).
      unfold S. rewrite (V1 p1), (V2 p2). destruct g1, g2; reflexivity.
    + rewrite EQ in E1. rewrite EQ' in E2. rewrite square_term in E1, E2 by assumption. injection E1 as _ Q1 Q2. injection E2 as _ Q3 Q4.
      unfold S, W1, W2, scaled. subst c1 c2 x1 x2. change (27 + 0) with 27. subst t g1 g2. rewrite EQ, EQ' in T0.
      assert (AB : ls * m = - (rs * m')).
      { apply (opposite _ _ 1); [lia|]. etransitivity; [|exact T0]. replace (ls * m <? 0) with ((ls <? 0) && negb (m =? 0)) by (clear - B; destruct (ls <? 0) eqn:K; nia).
        replace (rs * m' <? 0) with ((rs <? 0) && negb (m' =? 0)) by (clear - B'; destruct (rs <? 0) eqn:K; nia).
        clear. apply f_equal2.
        - destruct (ls <? 0); [|cbn [andb]; ring]. destruct (Z.eqb_spec m 0) as [->|]; cbn [andb negb]; ring.
        - destruct (rs <? 0); [|cbn [andb]; ring]. destruct (Z.eqb_spec m' 0) as [->|]; cbn [andb negb]; ring. }
      transitivity ((ls * m + rs * m') * 10 ^ 27); [|rewrite AB; ring].
      clear. destruct (ls <? 0) eqn:K; [rewrite (Z.abs_neq ls) by lia|rewrite (Z.abs_eq ls) by lia]; (destruct (rs <? 0) eqn:L; [rewrite (Z.abs_neq rs) by lia|rewrite (Z.abs_eq rs) by lia]); ring.
Qed.

(** * C146: the sign of a radical *)
Definition perfect (n : Z) : Prop := exists m, n = m * m.
(** The sign of a radical whose value is not 0 is right, for any nine bytes; only a
    denominator of 0 is an error.  A value of 0 counts as positive if its terms cancel
    without roots. *)
Theorem C146_sign : forall d, length d = 9%nat -> wf_bytes d -> exists ls lr rs rr e, radical_comps (Buf true d) = Ok (ls, lr, rs, rr, e) /\
  (e = 0 -> radical_sign (Buf true d) = Err ZeroDivisionError) /\
  (e <> 0 -> side ls lr rs rr <> 0 -> radical_sign (Buf true d) = Ok (Z.sgn (side ls lr rs rr))) /\
  (e <> 0 -> side ls lr rs rr = 0 -> radical_sign (Buf true d) = Ok 1 \/ radical_sign (Buf true d) = Ok (-1)) /\
  (e <> 0 -> side ls lr rs rr = 0 -> lr = rr \/ ls * lr = 0 \/ (perfect lr /\ perfect rr) -> radical_sign (Buf true d) = Ok 1).
Proof.
  intros d L W. destruct (comps_bound d L W) as (ls & lr & rs & rr & e & C & H1 & H2 & H3 & H4 & H5). exists ls, lr, rs, rr, e. split; [exact C|].
  unfold radical_sign, radical_decimal. rewrite C. cbn [rbind].
  split; [intros ->; reflexivity|]. assert (V : e <> 0 -> 0 < e) by lia.
  split; [|split]; intros N T; destruct (value_sign ls lr rs rr e H1 H2 H3 H4 (V N)) as (x & E & SN & SZ); rewrite E; cbn [rbind].
  - destruct (SN T) as [P G]. unfold dec_lt0. rewrite G. replace (d_coef x =? 0) with false by lia. f_equal. clear - T. destruct (side ls lr rs rr <? 0) eqn:K; cbn [andb negb]; lia.
  - destruct (dec_lt0 x); [right|left]; reflexivity.
  - intros K. unfold dec_lt0. rewrite SZ; [now rewrite andb_false_r|exact T|]. destruct K as [K|[K|[[m K] [m' K']]]]; [now left|right; now left|]. right. right.
    assert (SQ : forall k n, 0 <= n <= 1665 -> n = k * k -> 0 <= Z.abs k <= 40 /\ n = Z.abs k * Z.abs k).
    { clear. intros k n H ->. rewrite Z.abs_square. split; [|reflexivity]. split; [lia|]. destruct (Z.le_gt_cases (Z.abs k) 40); [assumption|].
      assert (41 * 41 <= Z.abs k * Z.abs k) by (apply Z.mul_le_mono_nonneg; lia). rewrite Z.abs_square in *. lia. }
    destruct (SQ m lr H2 K) as [B Q]. destruct (SQ m' rr H4 K') as [B' Q']. exists (Z.abs m), (Z.abs m'). tauto.
Qed.
Print Assumptions C146_sign.
(** A value of 0 is not recognised otherwise: √12 - 2√3 is 0, its decimal value is
    -1E-27 and its sign is -1; with the terms exchanged in sign it is 1. *)
Definition twelve (s : Z) : bytes := [28; 16 * s; 1; 0; 32; 1; 0; 48; 18].
Theorem C146_zero_refuted : exists d d', length d = 9%nat /\ wf_bytes d /\ length d' = 9%nat /\ wf_bytes d' /\
  radical_comps (Buf true d) = Ok (1, 12, -2, 3, 1) /\ side 1 12 (-2) 3 = 0 /\ radical_decimal (Buf true d) = Ok (Dec true 1 (-27)) /\ radical_sign (Buf true d) = Ok (-1) /\
  radical_comps (Buf true d') = Ok (-1, 12, 2, 3, 1) /\ side (-1) 12 2 3 = 0 /\ radical_decimal (Buf true d') = Ok (Dec false 1 (-27)) /\ radical_sign (Buf true d') = Ok 1.
Proof.
  exists (twelve 2), (twelve 1). unfold twelve. repeat apply conj; try reflexivity; apply Forall_forall; intros z I; cbn in I; unfold is_byte; lia.
Qed.
Print Assumptions C146_zero_refuted.
(** (905√924 - 893√949)/7, whose squares differ by 1, is about -0.0000026; 905√924 and
    9√16 - 12√9 for the cases of cancelling terms. *)
Example C146_example :
  let d := [28; 32; 7; 137; 57; 5; 148; 153; 36] in
  length d = 9%nat /\ wf_bytes d /\ radical_comps (Buf true d) = Ok (905, 924, -893, 949, 7) /\ side 905 924 (-893) 949 = -1 /\
  radical_decimal (Buf true d) = Ok (Dec true 2596494454389961972857142857 (-33)) /\ radical_sign (Buf true d) = Ok (-1) /\
  (let d' := [28; 32; 1; 1; 32; 9; 0; 144; 22] in radical_comps (Buf true d') = Ok (9, 16, -12, 9, 1) /\ side 9 16 (-12) 9 = 0 /\ radical_sign (Buf true d') = Ok 1) /\
  radical_sign (Buf true [28; 0; 0; 0; 16; 1; 0; 16; 2]) = Err ZeroDivisionError.
Proof. repeat apply conj; try reflexivity. apply Forall_forall; intros z I; cbn in I; unfold is_byte; lia. Qed.
