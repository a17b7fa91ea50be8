(** Lemmas for fractions: closest fractions and decimal division. *)
From Verif Require Import L_Base M_Data M_Numeric M_Real S_Data L_Data S_Real L_Real.
From Coq Require Import Znumtheory.

(** * Continued fractions *)
Section Limit.
Variables N D M : Z.
Hypothesis HD : 0 < D.
Hypothesis HG : Z.gcd N D = 1.
Hypothesis HM : 1 <= M.
Hypothesis HB : M < D.
Definition inv (s p0 q0 p1 q1 n d : Z) : Prop :=
  N = p1 * n + p0 * d /\ D = q1 * n + q0 * d /\ p1 * q0 - p0 * q1 = s /\ (s = 1 \/ s = -1) /\
  0 < d /\ 0 <= q0 <= M /\ 0 <= q1 <= M /\ (q1 = 0 /\ q0 = 1 \/ 1 <= q1 /\ d < n).
Lemma inv_step s p0 q0 p1 q1 n d : inv s p0 q0 p1 q1 n d -> q0 + n / d * q1 <= M ->
  inv (- s) p1 q1 (p0 + n / d * p1) (q0 + n / d * q1) d (n - n / d * d).
Proof.
  intros (EN & ED & ES & Hs & Hd & H0 & H1 & HC) Q. unfold inv.
  pose proof (Z.div_mod n d ltac:(lia)) as DM. pose proof (Z.mod_pos_bound n d Hd) as MB.
  set (a := n / d) in *. assert (ER : n - a * d = n mod d) by lia.
  assert (Q1 : 1 <= q0 + a * q1).
  { destruct HC as [[-> ->]|[C1 C2]]; [lia|]. assert (1 <= a) by (unfold a; apply Z.div_le_lower_bound; lia). nia. }
  repeat apply conj; try lia.
  (* d' > 0 *)
  destruct (Z.eq_dec (n - a * d) 0) as [Z0|NZ]; [exfalso|lia].
  assert (DN : N = (p0 + a * p1) * d) by nia. assert (DD : D = (q0 + a * q1) * d) by nia.
  assert (d = 1). { assert (G : (d | Z.gcd N D)) by (apply Z.gcd_greatest; [exists (p0 + a * p1)|exists (q0 + a * q1)]; auto).
    rewrite HG in G. apply Z.divide_1_r_nonneg in G; lia. }
  subst d. lia.
Qed.
Lemma loop_inv fuel : forall s p0 q0 p1 q1 n d, inv s p0 q0 p1 q1 n d ->
  (q1 = 0 -> M + 1 < Z.of_nat fuel) -> (1 <= q1 -> q0 = 0 -> M < Z.of_nat fuel) ->
  (1 <= q1 -> 1 <= q0 -> M - q1 < Z.of_nat fuel) ->
  exists s' p0' q0' p1' q1' n' d', limit_loop fuel M p0 q0 p1 q1 n d = (p0', q0', p1', q1') /\
    inv s' p0' q0' p1' q1' n' d' /\ M < q0' + n' / d' * q1'.
Proof.
  induction fuel as [|f IH]; intros s p0 q0 p1 q1 n d I F1 F2 F3.
  - exfalso. destruct I as (_ & _ & _ & _ & _ & H0 & H1 & HC). destruct HC as [[C1 C2]|[C1 C2]]; [lia|].
    destruct (Z.eq_dec q0 0); [lia|]. specialize (F3 C1 ltac:(lia)). lia.
  - cbn [limit_loop]. cbv zeta. destruct (M <? q0 + n / d * q1) eqn:E.
    + exists s, p0, q0, p1, q1, n, d. repeat split; auto; try apply I; lia.
    + pose proof (inv_step _ _ _ _ _ _ _ I ltac:(lia)) as I'.
      destruct I as (_ & _ & _ & _ & Hd & H0 & H1 & HC).
      assert (A : 1 <= q1 -> 1 <= n / d). { intros. destruct HC as [[C1 C2]|[C1 C2]]; [lia|]. apply Z.div_le_lower_bound; lia. }
      set (a := n / d) in *. apply (IH _ _ _ _ _ _ _ I').
      * intros Z. exfalso. destruct HC as [[C1 C2]|[C1 C2]]; [lia|]. nia.
      * intros _ Z. lia.
      * intros Q2 Q1. destruct HC as [[C1 C2]|[C1 C2]]; [lia|]. specialize (A Q1).
        destruct (Z.eq_dec q0 0) as [Z|Z]; [specialize (F2 Q1 Z); lia|]. specialize (F3 Q1 ltac:(lia)). nia.
Qed.
(** The result is a closest fraction, in lowest terms. *)
Lemma limit_closest : forall r s, limit_denominator M (N, D) = (r, s) ->
  1 <= s <= M /\ Z.gcd r s = 1 /\
  forall u v, 1 <= v <= M -> Z.abs (r * D - N * s) * v <= Z.abs (u * D - N * v) * s.
Proof.
  intros r s E. unfold limit_denominator in E. replace (D <=? M) with false in E by lia.
  assert (I0 : inv 1 0 1 1 0 N D) by (unfold inv; repeat apply conj; lia).
  destruct (loop_inv (S (S (S (Z.to_nat M)))) _ _ _ _ _ _ _ I0) as (t & p0 & q0 & p1 & q1 & n & d & EL & I & X); [lia|lia|lia|].
  rewrite EL in E. destruct I as (EN & ED & ES & Hs & Hd & H0 & H1 & HC).
  destruct HC as [[C1 C2]|[C1 C2]]; [subst; rewrite Z.mul_0_r in X; lia|].
  set (k := (M - q0) / q1) in *.
  pose proof (Z.div_mod (M - q0) q1 ltac:(lia)) as DK. pose proof (Z.mod_pos_bound (M - q0) q1 ltac:(lia)) as MK. fold k in DK.
  assert (K0 : 0 <= k) by (apply Z.div_pos; lia).
  pose proof (Z.div_mod n d ltac:(lia)) as DN. pose proof (Z.mod_pos_bound n d ltac:(lia)) as MN.
  assert (KA : k + 1 <= n / d) by nia.
  set (P := p0 + k * p1) in *. set (Q := q0 + k * q1) in *.
  set (n' := n - k * d). assert (N' : 0 < n') by (unfold n'; nia).
  assert (EN' : N = p1 * n' + P * d) by (unfold n', P; rewrite EN; ring).
  assert (ED' : D = q1 * n' + Q * d) by (unfold n', Q; rewrite ED; ring).
  assert (ES' : p1 * Q - P * q1 = t) by (unfold P, Q; rewrite <- ES; ring).
  assert (QM : Q <= M) by (unfold Q; lia). assert (QM' : M < Q + q1) by (unfold Q; lia).
  assert (Q1 : 0 <= Q) by (unfold Q; nia).
  assert (Q2 : 1 <= Q) by lia.
  assert (T1 : p1 * D - N * q1 = t * d) by (rewrite EN', ED', <- ES'; ring).
  assert (T2 : P * D - N * Q = - t * n') by (rewrite EN', ED', <- ES'; ring).
  assert (A1 : Z.abs (p1 * D - N * q1) = d) by (rewrite T1; destruct Hs as [->| ->]; lia).
  assert (A2 : Z.abs (P * D - N * Q) = n') by (rewrite T2; destruct Hs as [->| ->]; lia).
  assert (CL : forall u v, 1 <= v <= M -> d * v <= Z.abs (u * D - N * v) * q1 \/ n' * v <= Z.abs (u * D - N * v) * Q).
  { intros u v Hv. set (al := t * (u * Q - P * v)). set (be := t * (p1 * v - u * q1)).
    assert (T : t * t = 1) by (destruct Hs as [->| ->]; reflexivity).
    assert (Ev : v = al * q1 + be * Q).
    { unfold al, be. transitivity (t * t * v); [rewrite T; ring|]. rewrite <- ES' at 2. ring. }
    assert (Eu : u * D - N * v = t * (al * d - be * n')).
    { unfold al, be. transitivity (t * t * (u * D - N * v)); [rewrite T; ring|]. rewrite EN', ED'. ring. }
    assert (Ea : Z.abs (u * D - N * v) = Z.abs (al * d - be * n')) by (rewrite Eu; destruct Hs as [->| ->]; lia).
    rewrite Ea. clearbody al be. clear - Ev Hv QM QM' Q2 C1 Hd N' H1.
    destruct (Z.le_gt_cases be 0) as [B|B].
    - left. assert (0 < al) by nia. rewrite Z.abs_eq by nia. rewrite Ev. nia.
    - destruct (Z.le_gt_cases al 0) as [A|A]; [|exfalso; nia].
      right. rewrite Z.abs_neq by nia. rewrite Ev at 1. nia. }
  assert (G1 : Z.gcd p1 q1 = 1). { apply Zgcd_1_rel_prime, bezout_rel_prime. apply Bezout_intro with (t * Q) (- t * P).
    transitivity (t * (p1 * Q - P * q1)); [ring|]. rewrite ES'. destruct Hs as [->| ->]; reflexivity. }
  assert (G2 : Z.gcd P Q = 1). { apply Zgcd_1_rel_prime, bezout_rel_prime. apply Bezout_intro with (- t * q1) (t * p1).
    transitivity (t * (p1 * Q - P * q1)); [ring|]. rewrite ES'. destruct Hs as [->| ->]; reflexivity. }
  rewrite A1, A2 in E. clear - E A1 A2 CL G1 G2 QM Q2 C1 H1 N' Hd.
  destruct (d * Q <=? n' * q1) eqn:C; injection E as <- <-; (split; [lia|split; [auto|]]); intros u v Hv.
  - rewrite A1. specialize (CL u v Hv). set (w := Z.abs (u * D - N * v)) in *. clearbody w.
    destruct CL as [CL|CL]; [exact CL|].
    assert (d * v * Q <= w * q1 * Q) by nia. nia.
  - rewrite A2. specialize (CL u v Hv). set (w := Z.abs (u * D - N * v)) in *. clearbody w.
    destruct CL as [CL|CL]; [|exact CL]. assert (n' * v * q1 <= w * Q * q1) by nia. nia.
Qed.
End Limit.
(** A fraction with small denominator near enough to [N / D] is recovered. *)
Lemma limit_recovers N D M u v : 0 < D -> Z.gcd N D = 1 -> 1 <= v <= M -> Z.gcd u v = 1 ->
  2 * M * M * Z.abs (u * D - N * v) < v * D ->
  limit_denominator M (N, D) = (u, v).
Proof.
  intros HD G Hv Gu C.
  assert (U : forall r s, 1 <= s -> Z.gcd r s = 1 -> r * v = u * s -> (r, s) = (u, v)).
  { intros r s Hs Gr E. assert (D1 : (s | v)). { apply (Z.gauss s r v); [exists u; lia|now rewrite Z.gcd_comm]. }
    assert (D2 : (v | s)). { apply (Z.gauss v u s); [exists r; lia|now rewrite Z.gcd_comm]. }
    assert (s = v) by (apply Z.divide_antisym_nonneg; auto; lia). subst s. f_equal. nia. }
  destruct (Z.le_gt_cases D M) as [L|L].
  - unfold limit_denominator. replace (D <=? M) with true by lia. apply U; auto; [lia|].
    destruct (Z.eq_dec (u * D - N * v) 0) as [Z|Z]; [lia|exfalso]. assert (1 <= Z.abs (u * D - N * v)) by lia.
    assert (v * D <= M * M) by nia. nia.
  - destruct (limit_denominator M (N, D)) as [r s] eqn:E. apply limit_closest in E as (Hs & Gr & CL); auto; [|lia].
    apply U; auto; [lia|]. specialize (CL u v Hv).
    destruct (Z.eq_dec (r * v - u * s) 0) as [Z|Z]; [lia|exfalso].
    set (w := Z.abs (u * D - N * v)) in *. set (y := Z.abs (r * D - N * s)) in *.
    assert (T : Z.abs (r * v - u * s) * D <= y * v + w * s).
    { replace (Z.abs (r * v - u * s) * D) with (Z.abs ((r * D - N * s) * v - (u * D - N * v) * s)).
      2:{ replace ((r * D - N * s) * v - (u * D - N * v) * s) with ((r * v - u * s) * D) by ring. rewrite Z.abs_mul. f_equal. lia. }
      unfold y, w. pose proof (Z.abs_mul (r * D - N * s) v). pose proof (Z.abs_mul (u * D - N * v) s). lia. }
    assert (1 <= Z.abs (r * v - u * s)) by lia. assert (D <= 2 * (w * s)) by nia.
    assert (0 <= w) by (unfold w; lia).
    assert (2 * M * M * w * s < v * D * s) by nia. assert (M * M * D <= 2 * M * M * (w * s)) by nia. 
    assert (v * s <= M * M) by nia. nia.
Qed.

(** * Printing decimals *)
Lemma hd_firstn k (l : list Z) : (0 < k)%nat -> hd 1 (firstn k l) = hd 1 l.
Proof. destruct k; [lia|]. now destruct l. Qed.
Lemma dec_str_literal d : 0 <= d_coef d -> exists l, lit_wf l /\ dec_str d = lit_text l /\
  squash (lit_text l) = lit_text l /\ lit_neg l = d_neg d /\ lit_coef l = d_coef d /\ lit_scale l = d_exp d.
Proof.
  destruct d as [neg c e]. cbn [d_neg d_coef d_exp]. intros Hc.
  set (sg := if neg then s2l "-" else []). set (ds := digits c). set (n := zlen ds).
  pose proof (digits_are_digits c Hc) as DD. fold ds in DD. assert (DD' : Forall digit ds) by exact DD.
  assert (Nn : number ds = c) by (unfold ds; rewrite number_dec; now apply dec_value_digits).
  assert (L1 : 1 <= n). { unfold n, ds. destruct (digits c) eqn:E; [now apply digits_nonempty in E|]. rewrite zlen_cons. pose proof (zlen_nonneg l). lia. }
  assert (HD : hd 1 ds = 0 -> c = 0).
  { intros H. destruct (Z.eq_dec c 0); auto. destruct (digits_head c ltac:(lia)) as (x & r & E & B). unfold ds in H. rewrite E in H. cbn in H. lia. }
  assert (SG : is_sign sg) by (unfold sg; destruct neg; cbn; auto).
  assert (SN : negative sg = neg) by (unfold sg; destruct neg; reflexivity).
  assert (SQ : Forall (fun x => is_space x = false) sg) by (unfold sg; destruct neg; repeat constructor).
  assert (NS : forall ds, Forall digit ds -> Forall (fun x => is_space x = false) (text_of ds)) by exact text_no_space.
  assert (ZL : zlen (map char_of_digit ds) = n) by (unfold zlen, n; now rewrite map_length).
  unfold dec_str. cbn [d_neg d_coef d_exp]. fold ds. cbv zeta. rewrite ZL. change (map char_of_digit ds) with (text_of ds). fold sg.
  destruct ((e <=? 0) && (-6 <? e + n)) eqn:C.
  - rewrite Z.sub_diag. cbn [Z.eqb]. rewrite app_nil_r.
    destruct (e + n <=? 0) eqn:C1; [|destruct (n <=? e + n) eqn:C2].
    + (* 0.00ddd *)
      set (z := Z.to_nat (- (e + n))). exists (Lit sg [0] (Some (repeat 0 z ++ ds)) None).
      assert (F : Forall digit (repeat 0 z ++ ds)).
      { apply Forall_app. split; auto. apply Forall_forall. intros x I. apply repeat_spec in I. rewrite I. unfold digit. lia. }
      split; [|split; [|split; [|split; [|split]]]].
      * unfold lit_wf, frac_digits. cbn [l_sign l_int l_frac l_exp]. repeat apply conj; auto. constructor; [unfold digit; lia|constructor].
      * unfold lit_text. cbn [l_sign l_int l_frac l_exp]. rewrite text_app, <- text_repeat0, app_nil_r. reflexivity.
      * apply squash_id. unfold lit_text. cbn [l_sign l_int l_frac l_exp]. apply Forall_app. split; auto. apply Forall_app. split; [apply NS; repeat constructor; unfold digit; lia|].
        rewrite app_nil_r. apply Forall_app. split; [repeat constructor|auto].
      * exact SN.
      * unfold lit_coef, frac_digits. cbn [l_int l_frac]. rewrite number_dec, !dec_value_app. change (dec_value (repeat 0 z)) with (number (repeat 0 z)).
        rewrite number_repeat0. change (dec_value [0]) with 0. rewrite <- number_dec, Nn. lia.
      * unfold lit_scale, frac_digits, exp_value. cbn [l_frac l_exp]. rewrite zlen_app, zlen_repeat. fold n. unfold z. lia.
    + (* ddd *)
      assert (e = 0) as -> by lia. replace (Z.to_nat (0 + n - n)) with 0%nat by lia. cbn [repeat]. rewrite app_nil_r.
      exists (Lit sg ds None None). split; [|split; [|split; [|split; [|split]]]].
      * unfold lit_wf, frac_digits. cbn [l_sign l_int l_frac l_exp]. repeat apply conj; auto. intros H. rewrite Nn. auto.
      * unfold lit_text. cbn [l_sign l_int l_frac l_exp]. now rewrite !app_nil_r.
      * apply squash_id. unfold lit_text. cbn [l_sign l_int l_frac l_exp]. rewrite !app_nil_r. apply Forall_app. split; auto.
      * exact SN.
      * unfold lit_coef, frac_digits. cbn [l_int l_frac]. now rewrite app_nil_r.
      * reflexivity.
    + (* dd.ddd *)
      set (k := Z.to_nat (e + n)). assert (K : zlen (firstn k ds) = e + n).
      { unfold zlen. rewrite firstn_length. unfold n, zlen, k in *. lia. }
      exists (Lit sg (firstn k ds) (Some (skipn k ds)) None).
      assert (D1 : Forall digit (firstn k ds)) by now apply Forall_firstn. assert (D2 : Forall digit (skipn k ds)) by now apply Forall_skipn.
      split; [|split; [|split; [|split; [|split]]]].
      * unfold lit_wf, frac_digits. cbn [l_sign l_int l_frac l_exp]. repeat apply conj; auto.
        intros H. rewrite hd_firstn in H by (unfold k; lia). apply HD in H.
        exfalso. assert (Eds : ds = [0]) by (unfold ds; now rewrite H). assert (n = 1) by (unfold n; now rewrite Eds). lia.
      * unfold lit_text. cbn [l_sign l_int l_frac l_exp]. unfold text_of at 1 2. rewrite firstn_map, skipn_map. fold (text_of (firstn k ds)). now rewrite app_nil_r.
      * apply squash_id. unfold lit_text. cbn [l_sign l_int l_frac l_exp]. apply Forall_app. split; auto. apply Forall_app. split; auto.
        rewrite app_nil_r. apply Forall_app. split; [repeat constructor|auto].
      * exact SN.
      * unfold lit_coef, frac_digits. cbn [l_int l_frac]. now rewrite firstn_skipn.
      * unfold lit_scale, frac_digits, exp_value. cbn [l_frac l_exp].
        assert (zlen (skipn k ds) = - e). { pose proof (f_equal zlen (firstn_skipn k ds)) as Q. rewrite zlen_app, K in Q. fold n in Q. lia. }
        lia.
  - (* scientific *)
    change (1 <=? 0) with false. cbv iota. set (e' := e + n - 1).
    assert (EX : exists X, (X = None \/ exists sg2 ds2, X = Some (s2l "E", sg2, ds2)) /\
        (if e' =? 0 then [] else s2l "E" ++ (if 0 <=? e' then s2l "+" else []) ++ str_of_int e') =
        match X with Some (m, s, t) => m ++ s ++ text_of t | None => [] end /\
        match X with Some (m, s, t) => is_mark m /\ is_sign s /\ Forall digit t /\ t <> [] | None => True end /\
        match X with Some (m, s, t) => if negative s then - number t else number t | None => 0 end = e').
    { destruct (e' =? 0) eqn:E0. { exists None. repeat split; auto; lia. }
      destruct (0 <=? e') eqn:E1.
      - exists (Some (s2l "E", s2l "+", digits e')). split; [right; eauto|]. split.
        { unfold str_of_int. replace (e' <? 0) with false by lia. reflexivity. }
        split; [|cbn [negative]; change (negative (s2l "+")) with false; cbv iota; rewrite number_dec; apply dec_value_digits; lia].
        repeat apply conj; [cbn; auto|cbn; auto|apply digits_are_digits; lia|apply digits_nonempty; lia].
      - exists (Some (s2l "E", s2l "-", digits (- e'))). split; [right; eauto|]. split.
        { unfold str_of_int. replace (e' <? 0) with true by lia. reflexivity. }
        split; [|change (negative (s2l "-")) with true; cbv iota; rewrite number_dec, dec_value_digits; lia].
        repeat apply conj; [cbn; auto|cbn; auto|apply digits_are_digits; lia|apply digits_nonempty; lia]. }
    destruct EX as (X & XS & XT & XW & XV). rewrite XT.
    assert (XN : Forall (fun x => is_space x = false) match X with Some (m, s, t) => m ++ s ++ text_of t | None => [] end).
    { destruct X as [[[m s] t]|]; [|constructor]. destruct XW as (_ & Hs & Ht & _). destruct XS as [|(a & b & E)]; [discriminate|]. injection E as -> -> ->.
      apply Forall_app. split; [repeat constructor|]. apply Forall_app. split; [|auto].
      destruct Hs as [<-|[<-|[<-|[<-|[]]]]]; repeat constructor. }
    set (G := skipn 1 ds). assert (D2 : Forall digit G) by now apply Forall_skipn. assert (D1 : Forall digit (firstn 1 ds)) by now apply Forall_firstn.
    assert (LG : zlen G = n - 1). { pose proof (f_equal zlen (firstn_skipn 1 ds)) as Q. rewrite zlen_app in Q. fold n G in Q.
      assert (zlen (firstn 1 ds) = 1). { unfold zlen. rewrite firstn_length. unfold n, zlen in L1. lia. } lia. }
    assert (HN : hd 1 (firstn 1 ds) = 0 -> number (firstn 1 ds) = 0).
    { intros H. destruct ds as [|x r]; [reflexivity|]. cbn in H. rewrite H. reflexivity. }
    exists (Lit sg (firstn 1 ds) (if n <=? 1 then None else Some G) X).
    assert (FD : frac_digits (Lit sg (firstn 1 ds) (if n <=? 1 then None else Some G) X) = G).
    { unfold frac_digits. cbn [l_frac]. destruct (n <=? 1) eqn:E; auto. symmetry. destruct G; auto. rewrite zlen_cons in LG. pose proof (zlen_nonneg G). lia. }
    split; [|split; [|split; [|split; [|split]]]].
    + unfold lit_wf. rewrite FD. cbn [l_sign l_int l_exp]. repeat apply conj; auto.
    + unfold lit_text. cbn [l_sign l_int l_frac l_exp]. f_equal. rewrite (app_assoc (text_of _)). f_equal.
      destruct (n <=? 1) eqn:E.
      * replace (Z.to_nat (1 - n)) with 0%nat by lia. cbn [repeat]. rewrite !app_nil_r. f_equal.
        rewrite <- (firstn_skipn 1 ds) at 1. fold G. destruct G; [apply app_nil_r|]. rewrite zlen_cons in LG. pose proof (zlen_nonneg G). lia.
      * change (Z.to_nat 1) with 1%nat. unfold text_of at 1 2. rewrite firstn_map, skipn_map. reflexivity.
    + apply squash_id. unfold lit_text. cbn [l_sign l_int l_frac l_exp]. apply Forall_app. split; auto. apply Forall_app. split; auto.
      apply Forall_app. split; auto. destruct (n <=? 1); [constructor|]. apply Forall_app. split; [repeat constructor|auto].
    + exact SN.
    + unfold lit_coef. rewrite FD. cbn [l_int]. unfold G. now rewrite firstn_skipn.
    + unfold lit_scale. rewrite FD. unfold exp_value. cbn [l_exp]. transitivity (e' - zlen G); [f_equal; exact XV|unfold e'; lia].
Qed.

(** * Division *)
Lemma ndigits_spec c : 0 < c -> 10 ^ (ndigits c - 1) <= c < 10 ^ ndigits c /\ 1 <= ndigits c.
Proof.
  intros H. unfold ndigits. pose proof (dec_value_digits c ltac:(lia)) as V.
  pose proof (dec_value_bound (digits c) (digits_are_digits c ltac:(lia))) as B. rewrite V in B.
  destruct (digits_head c ltac:(lia)) as (d & r & E & Hd). rewrite E in *. rewrite zlen_cons in *.
  rewrite dec_value_cons in V. pose proof (digits_are_digits c ltac:(lia)) as DD. rewrite E in DD. inversion DD; subst.
  pose proof (dec_value_bound r H3). pose proof (zlen_nonneg r). split; [|lia]. split; [|lia].
  replace (1 + zlen r - 1) with (zlen r) by lia. pose proof (pow10_pos (zlen r) ltac:(lia)). nia.
Qed.
Lemma dec_fix_spec neg c e : 0 < c -> exists c' e',
  dec_fix (Dec neg c e) = Dec neg c' e' /\ 0 < c' < 10 ^ 14 /\ e <= e' /\
  (c' = c /\ e' = e \/ exists k, 1 <= k /\ 10 ^ (13 + k) <= c /\ 2 * Z.abs (c' * 10 ^ (e' - e) - c) <= 10 ^ k).
Proof.
  intros H. destruct (ndigits_spec c H) as [B L]. unfold dec_fix. cbn [d_coef d_neg d_exp]. cbv zeta.
  set (k := ndigits c - 14). destruct (k <=? 0) eqn:K.
  - exists c, e. split; auto. split; [|split; [lia|left; auto]]. split; auto.
    apply Z.lt_le_trans with (10 ^ ndigits c); [lia|]. apply Z.pow_le_mono_r; lia.
  - pose proof (pow10_pos k ltac:(lia)) as P. pose proof (half_even_spec c (10 ^ k) P) as HE. set (h := half_even c (10 ^ k)) in *.
    assert (C1 : 10 ^ (13 + k) <= c) by (replace (13 + k) with (ndigits c - 1) by lia; lia).
    assert (C2 : c < 10 ^ (14 + k)) by (replace (14 + k) with (ndigits c) by lia; lia).
    rewrite !Z.pow_add_r in * by lia. set (p := 10 ^ k) in *.
    assert (H1 : 10 ^ 13 <= h) by nia. assert (H2 : h <= 10 ^ 14) by nia.
    destruct (h <? 10 ^ 14) eqn:E.
    + exists h, (e + k). split; auto. split; [lia|]. split; [lia|]. right. exists k. split; [lia|]. 
      replace (e + k - e) with k by lia. rewrite Z.pow_add_r by lia. fold p. lia.
    + assert (h = 10 ^ 14) as Eh by lia. rewrite Eh in *. exists (10 ^ 13), (e + k + 1). split; [reflexivity|].
      split; [lia|]. split; [lia|]. right. exists k. split; [lia|]. replace (e + k + 1 - e) with (k + 1) by lia.
      rewrite !Z.pow_add_r by lia. fold p. lia.
Qed.
Lemma strip_zeros_spec fuel : forall c e, 0 < c -> exists j, 0 <= j /\ snd (strip_zeros fuel c e) = e + j /\
  fst (strip_zeros fuel c e) * 10 ^ j = c /\ 0 < fst (strip_zeros fuel c e).
Proof.
  induction fuel as [|f IH]; intros c e H; cbn [strip_zeros].
  - exists 0. cbn [fst snd]. change (10 ^ 0) with 1. lia.
  - destruct ((e <? 0) && (c mod 10 =? 0)) eqn:E.
    + assert (c = 10 * (c / 10)) by (pose proof (Z.div_mod c 10); lia).
      destruct (IH (c / 10) (e + 1)) as (j & J & S & F & P); [lia|]. exists (j + 1). rewrite S. 
      rewrite Z.pow_add_r by lia. change (10 ^ 1) with 10. repeat split; try lia.
    + exists 0. cbn [fst snd]. change (10 ^ 0) with 1. lia.
Qed.
Lemma dec_div_close n d : n <> 0 -> 0 < d <= 10000 -> Z.abs n < 10 ^ 5 * d ->
  exists c e sh W, dec_div n d = Dec (n <? 0) c e /\ 0 < c < 10 ^ 14 /\ 10 <= sh <= 19 /\ - sh <= e /\
    W = c * 10 ^ (e + sh) /\ 2 * 10 ^ 8 * Z.abs (W * d - Z.abs n * 10 ^ sh) < d * 10 ^ sh.
Proof.
  intros Hn Hd Ha. unfold dec_div. set (a := Z.abs n) in *. assert (A : 0 < a) by (unfold a; lia).
  replace (a =? 0) with false by lia. cbv zeta.
  destruct (ndigits_spec a A) as [Ba La]. destruct (ndigits_spec d ltac:(lia)) as [Bd Ld].
  set (sh := ndigits d - ndigits a + 15).
  assert (Nd : ndigits d <= 5) by (apply (ndigits_le d 5); lia).
  assert (Na : ndigits a <= ndigits d + 5).
  { destruct (Z.le_gt_cases (ndigits a) (ndigits d + 5)); auto. exfalso.
    assert (10 ^ (ndigits d + 5) <= 10 ^ (ndigits a - 1)) by (apply Z.pow_le_mono_r; lia). rewrite Z.pow_add_r in * by lia. nia. }
  assert (SH : 10 <= sh <= 19) by (unfold sh; lia). replace (0 <=? sh) with true by lia.
  set (num := a * 10 ^ sh). pose proof (pow10_pos sh ltac:(lia)) as PS.
  assert (Q1 : d * 10 ^ 14 <= num).
  { unfold num. assert (E : 10 ^ (ndigits a - 1) * 10 ^ sh = 10 ^ ndigits d * 10 ^ 14) by (rewrite <- !Z.pow_add_r by lia; f_equal; unfold sh; lia). nia. }
  assert (Q2 : num < d * 10 ^ 16).
  { unfold num. assert (E : 10 ^ ndigits a * 10 ^ sh = 10 ^ (ndigits d - 1) * 10 ^ 16) by (rewrite <- !Z.pow_add_r by lia; f_equal; unfold sh; lia). nia. }
  pose proof (Z.div_mod num d ltac:(lia)) as DM. pose proof (Z.mod_pos_bound num d ltac:(lia)) as MB. set (q := num / d) in *.
  assert (B1 : 10 ^ 14 <= q) by (unfold q; apply Z.div_le_lower_bound; lia).
  assert (B2 : q < 10 ^ 16) by (unfold q; apply Z.div_lt_upper_bound; lia).
  assert (S11 : 10 ^ 15 <= q -> 11 <= sh).
  { intros G. destruct (Z.eq_dec sh 10) as [E|]; [exfalso|lia]. unfold num in *. rewrite E in *. nia. }
  assert (P11 : 11 <= sh -> 10 ^ 11 <= 10 ^ sh) by (intros; apply Z.pow_le_mono_r; lia).
  assert (P10 : 10 ^ 10 <= 10 ^ sh) by (apply Z.pow_le_mono_r; lia).
  fold num.
  (* combine a bound on the rounding *)
  assert (FIN : forall W q' k, 0 <= k -> (k = 0 \/ 10 ^ (13 + k) <= q') -> q' < 10 ^ 16 -> (10 ^ 15 <= q' -> 10 ^ 15 <= q) ->
            2 * Z.abs (W - q') <= 10 ^ k -> Z.abs (q' * d - num) <= d ->
            2 * 10 ^ 8 * Z.abs (W * d - num) < d * 10 ^ sh).
  { intros W q' k K0 K1 K2 K3 K4 K5.
    assert (C : k = 0 \/ k = 1 \/ k = 2 /\ 10 ^ 15 <= q').
    { destruct K1 as [->|K1]; auto. assert (k < 3). { destruct (Z.lt_ge_cases k 3); auto. assert (10 ^ 16 <= 10 ^ (13 + k)) by (apply Z.pow_le_mono_r; lia). lia. }
      destruct (Z.eq_dec k 0); auto. destruct (Z.eq_dec k 1); auto. assert (k = 2) by lia. subst k. auto. }
    assert (T : Z.abs (W * d - num) <= Z.abs (W - q') * d + d).
    { replace (W * d - num) with ((W - q') * d + (q' * d - num)) by ring. pose proof (Z.abs_mul (W - q') d).
      rewrite (Z.abs_eq d) in * by lia. lia. }
    set (D := Z.abs (W - q')) in *.
    assert (X : 2 * 10 ^ 8 * (D + 1) < 10 ^ sh).
    { destruct C as [->|[->|[-> C]]]; [| |specialize (P11 (S11 (K3 C)))];
        [change (10 ^ 0) with 1 in K4|change (10 ^ 1) with 10 in K4|change (10 ^ 2) with 100 in K4]; clear -K4 P10 P11; lia. }
    assert (Y : 2 * 10 ^ 8 * (D + 1) * d < 10 ^ sh * d) by (apply Z.mul_lt_mono_pos_r; lia).
    clear -T Y. lia. }
  destruct (num mod d =? 0) eqn:EX.
  - (* exact *)
    destruct (strip_zeros_spec (Z.to_nat sh) q (- sh) ltac:(lia)) as (j & J & SN & FS & FP).
    destruct (strip_zeros (Z.to_nat sh) q (- sh)) as [c0 e0]. cbn [fst snd] in *.
    destruct (dec_fix_spec (n <? 0) c0 e0 FP) as (c & e & -> & C & Le & O).
    exists c, e, sh, (c * 10 ^ (e + sh)). split; auto. split; auto. split; auto. split; [lia|]. split; auto.
    pose proof (pow10_pos j J) as PJ.
    assert (EW : c * 10 ^ (e + sh) = c * 10 ^ (e - e0) * 10 ^ j) by (rewrite <- Z.mul_assoc, <- Z.pow_add_r by lia; do 2 f_equal; lia).
    assert (DQ : Z.abs (q * d - num) <= d) by (clear -DM MB; lia).
    clear -FIN O EW FS PJ J B2 DQ.
    destruct O as [[-> ->]|(k & K1 & K2 & K3)].
    + apply (FIN _ q 0); auto; [lia|]. rewrite EW, Z.sub_diag. change (10 ^ 0) with 1. clear -FS. lia.
    + apply (FIN _ q (k + j)); auto; [clear -J K1; lia| |].
      * right. rewrite <- FS. replace (13 + (k + j)) with (13 + k + j) by (clear; lia). rewrite (Z.pow_add_r 10 (13 + k) j) by (clear -K1 J; lia).
        apply Z.mul_le_mono_nonneg_r; [clear -PJ; lia|exact K2].
      * rewrite EW, <- FS. rewrite <- Z.mul_sub_distr_r, Z.abs_mul, (Z.abs_eq (10 ^ j)) by (clear -PJ; lia). rewrite Z.pow_add_r by (clear -K1 J; lia).
        assert (PJ' : 0 <= 10 ^ j) by (clear -PJ; lia). pose proof (Z.mul_le_mono_nonneg_r _ _ (10 ^ j) PJ' K3) as Y. clear -Y. lia.
  - set (q' := if q mod 5 =? 0 then q + 1 else q). assert (Hq : q' = q \/ q' = q + 1 /\ q mod 5 = 0) by (unfold q'; destruct (q mod 5 =? 0) eqn:E5; lia).
    destruct (dec_fix_spec (n <? 0) q' (- sh) ltac:(lia)) as (c & e & -> & C & Le & O).
    exists c, e, sh, (c * 10 ^ (e + sh)). split; auto. split; auto. split; auto. split; [lia|]. split; auto.
    assert (DQ : Z.abs (q' * d - num) <= d) by (clear -DM MB Hq; destruct Hq as [->|[-> _]]; lia).
    assert (L1 : q' < 10 ^ 16) by (clear -B2 Hq; lia). assert (L2 : 10 ^ 15 <= q' -> 10 ^ 15 <= q) by (clear -Hq; lia).
    clear -FIN O DQ L1 L2.
    destruct O as [[Ec Ee]|(k & K1 & K2 & K3)].
    + apply (FIN _ q' 0); auto; [lia|]. rewrite Ec, Ee, Z.add_opp_diag_l. change (10 ^ 0) with 1. clear. lia.
    + apply (FIN _ q' k); auto; [clear -K1; lia|]. replace (e + sh) with (e - - sh) by (clear; lia). exact K3.
Qed.
Lemma dec_ratio_spec neg c e : e < 0 -> exists N D, dec_ratio (Dec neg c e) = (N, D) /\ 0 < D /\ Z.gcd N D = 1 /\
  N * 10 ^ (- e) = (if neg then - c else c) * D.
Proof.
  intros H. unfold dec_ratio. cbn [d_neg d_coef d_exp]. replace (0 <=? e) with false by lia. cbv zeta.
  set (n := if neg then - c else c). pose proof (pow10_pos (- e) ltac:(lia)) as P. set (p := 10 ^ (- e)) in *. clearbody p.
  set (g := Z.gcd n p). assert (G : 0 < g) by (unfold g; pose proof (Z.gcd_nonneg n p); destruct (Z.eq_dec (Z.gcd n p) 0) as [E|]; [apply Z.gcd_eq_0_r in E|]; lia).
  destruct (Z.gcd_divide_l n p) as [x Ex]. destruct (Z.gcd_divide_r n p) as [y Ey]. fold g in Ex, Ey.
  assert (E1 : n / g = x) by (rewrite Ex; apply Z.div_mul; lia). assert (E2 : p / g = y) by (rewrite Ey; apply Z.div_mul; lia).
  exists x, y. rewrite E1, E2. split; auto. split; [nia|]. split; [|rewrite Ex at 1 || idtac; nia].
  rewrite <- E1, <- E2. apply Z.gcd_div_gcd; [lia|reflexivity].
Qed.
(** The whole way. *)
Lemma fraction_roundtrip n d c0 c1 r : 1 <= d <= 10000 -> Z.gcd n d = 1 -> Z.abs n < 10 ^ 5 * d ->
  is_byte c0 -> length r = 7%nat ->
  exists b, load_fraction n d (Buf true (c0 :: c1 :: r)) = (b, oret tt) /\ real_fraction b = Ok (n, d).
Proof.
  intros Hd G Hn H0 L. unfold load_fraction. destruct (Z.eq_dec n 0) as [->|Nn].
  { assert (d = 1) as -> by (rewrite Z.gcd_0_l in G; lia). change (dec_str (dec_div 0 1)) with (s2l "0").
    destruct (real_load_spec (Lit [] [0] None None) (s2l "0") c0 c1 r) as [R _]; auto.
    { unfold lit_wf. cbn. repeat apply conj; auto. constructor; [unfold digit; lia|constructor]. }
    rewrite R by reflexivity. exists (stored c0 false 128 0). split; [reflexivity|].
    unfold real_fraction. rewrite real_decimal_stored by (auto; unfold is_byte; lia). reflexivity. }
  destruct (dec_div_close n d Nn ltac:(lia) Hn) as (c & e & sh & W & E & C & SH & Le & EW & CL). rewrite E.
  destruct (dec_str_literal (Dec (n <? 0) c e)) as (l & WL & T & Sq & LN & LC & LS); [cbn; lia|]. rewrite T. cbn [d_neg d_coef d_exp] in *.
  destruct (real_load_spec l (lit_text l) c0 c1 r WL Sq L H0) as [_ R]. destruct R as (m & x & TR & R); [lia|]. rewrite LC, LS, LN in *.
  pose proof (truncated14_exact _ _ _ _ c 0 TR ltac:(lia) ltac:(lia) ltac:(lia)) as SE. destruct TR as [TM _].
  set (ex := x - 141) in *. set (z := Z.min ex (- sh)). rewrite (scale_eq _ _ _ _ z) in SE by lia.
  assert (SE' : m * 10 ^ (ex - z) = W * 10 ^ (- sh - z)).
  { rewrite SE, EW, <- Z.mul_assoc, <- Z.pow_add_r by lia. do 2 f_equal. lia. }
  pose proof (pow10_pos sh ltac:(lia)) as P1. pose proof (pow10_pos (- sh - z) ltac:(lia)) as P2. pose proof (pow10_pos (ex - z) ltac:(lia)) as P3.
  pose proof (pow10_pos (e + sh) ltac:(lia)) as P4. assert (W1 : 1 <= W) by (clear -EW C P4; nia).
  assert (W2 : W < 10 ^ 6 * 10 ^ sh).
  { assert (Y : Z.abs (W * d - Z.abs n * 10 ^ sh) < d * 10 ^ sh) by (clear -CL; lia).
    assert (Y2 : Z.abs n * 10 ^ sh < 10 ^ 5 * d * 10 ^ sh) by (apply Z.mul_lt_mono_pos_r; assumption).
    assert (Y3 : W * d < (10 ^ 6 * 10 ^ sh) * d) by (clear -Y Y2 P1 Hd; set (p := 10 ^ sh) in *; clearbody p; change (10 ^ 5) with 100000 in *; change (10 ^ 6) with 1000000; nia).
    apply Z.mul_lt_mono_pos_r in Y3; [exact Y3|clear -Hd; lia]. }
  assert (X1 : ex < 0).
  { destruct (Z.lt_ge_cases ex 0); auto. exfalso. assert (z = - sh) by lia. rewrite H1 in *. replace (- sh - - sh) with 0 in * by lia.
    replace (ex - - sh) with (ex + sh) in * by lia. rewrite Z.pow_add_r in * by lia. change (10 ^ 0) with 1 in *.
    pose proof (pow10_pos ex H) as PX. clear -SE' PX P1 W2 TM. set (p := 10 ^ ex) in *. set (q := 10 ^ sh) in *. clearbody p q.
    assert (m * q <= m * p * q) by nia. assert (10 ^ 13 * q <= m * q) by nia. lia. }
  assert (X2 : -33 < ex).
  { destruct (Z.lt_ge_cases (-33) ex); auto. exfalso. assert (z = ex) by lia. rewrite H1 in *. rewrite Z.sub_diag in *. change (10 ^ 0) with 1 in *.
    assert (T14 : 10 ^ 14 <= 10 ^ (- sh - ex)) by (apply Z.pow_le_mono_r; lia). clear -SE' T14 W1 TM. nia. }
  assert (XB : is_byte x) by (unfold is_byte; lia).
  replace (is_byteb x) with true in R by (symmetry; now apply is_byteb_spec). exists (stored c0 (n <? 0) x m). split; [exact R|].
  unfold real_fraction. rewrite real_decimal_stored by (auto; lia). cbn [rbind]. replace (m =? 0) with false by lia. cbn [negb]. rewrite andb_true_r.
  fold ex. destruct (dec_ratio_spec (n <? 0) m ex X1) as (N & D & -> & PD & GD & ER). f_equal. apply limit_recovers; auto; try lia.
  (* transfer the error bound *)
  pose proof (pow10_pos (- ex) ltac:(lia)) as P5.
  assert (NE : N = (if n <? 0 then -1 else 1) * Z.abs N).
  { clear -ER PD TM P5. set (p := 10 ^ (- ex)) in *. clearbody p. destruct (n <? 0).
    - assert (N < 0) by nia. lia. - assert (0 < N) by nia. lia. }
  assert (AN : Z.abs N * 10 ^ sh = W * D).
  { assert (Y1 : Z.abs N * 10 ^ (- ex) = m * D). { clear -ER NE. set (a := Z.abs N) in *. clearbody a. destruct (n <? 0); subst N; lia. }
    assert (E1 : 10 ^ (- ex) * 10 ^ (ex - z) = 10 ^ (- z)) by (rewrite <- Z.pow_add_r by lia; f_equal; lia).
    assert (E2 : 10 ^ sh * 10 ^ (- sh - z) = 10 ^ (- z)) by (rewrite <- Z.pow_add_r by lia; f_equal; lia).
    apply (Z.mul_reg_r _ _ (10 ^ (- sh - z))); [clear -P2; lia|].
    rewrite <- (Z.mul_assoc (Z.abs N)), E2, <- E1, Z.mul_assoc, Y1, (Z.mul_comm m), <- Z.mul_assoc, SE'. ring. }
  assert (AB : Z.abs (n * D - N * d) * 10 ^ sh = D * Z.abs (W * d - Z.abs n * 10 ^ sh)).
  { rewrite <- (Z.abs_eq (10 ^ sh)) at 1 by lia. rewrite <- Z.abs_mul. rewrite <- (Z.abs_eq D) at 2 by lia. rewrite <- Z.abs_mul.
    replace (D * (W * d - Z.abs n * 10 ^ sh)) with ((Z.abs N * d - Z.abs n * D) * 10 ^ sh) by (transitivity (d * (Z.abs N * 10 ^ sh) - Z.abs n * D * 10 ^ sh); [ring|rewrite AN; ring]).
    rewrite !Z.abs_mul. f_equal. clear -NE. set (a := Z.abs N) in *. clearbody a. destruct (Z.ltb_spec n 0); subst N; [replace (Z.abs n) with (- n) by lia|replace (Z.abs n) with n by lia]; lia. }
  apply (Z.mul_lt_mono_pos_r (10 ^ sh)); [exact P1|]. set (X := Z.abs (n * D - N * d)) in *. set (Y := Z.abs (W * d - Z.abs n * 10 ^ sh)) in *.
  pose proof (proj1 (Z.mul_lt_mono_pos_r D _ _ PD) CL) as F. clear -AB F. change (10 ^ 8) with 100000000 in F.
  replace (2 * 10000 * 10000 * X * 10 ^ sh) with (200000000 * (X * 10 ^ sh)) by ring. rewrite AB. clearbody Y. clear -F. lia.
Qed.
