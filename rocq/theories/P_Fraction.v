(** Python's [Fraction(text)] and what real.py makes of it (C144). *)
From Verif Require Import PyBase M_Data M_Numeric M_Class M_Var M_Real M_Complex M_Text M_CText M_Float M_Fraction L_Base S_Data L_Data S_Real L_Real L_Radical L_Frac P_Real P_Text P_ListText P_CText P_TText S_Float L_Float P_Float S_Fraction L_Fraction.

(** * C144: the texts of fractions *)
(** A text of a fraction stands for its value in lowest terms; a zero below the bar is an error. *)
Theorem C144_reads : forall sign t n d, In sign [[]; s2l "+"; s2l "-"] -> fraction_form t n d -> zlen t <= 4300 ->
  (d = 0 /\ py_fraction (sign ++ t) = Err ZeroDivisionError) \/
  (0 < d /\ exists N D, py_fraction (sign ++ t) = Ok (N, D) /\ lowest_of (if leqb sign (s2l "-") then - n else n) d N D).
Proof.
  intros sign t n d S F L. unfold py_fraction. rewrite (sign_of_app sign t S (proj2 (form_starts t n d F))). exact (unsigned_ok (leqb sign [45]) t n d F L).
Qed.
(** So is a number with more than 4300 digits on either side of the slash, or on
    either side of the point. *)
Lemma int_of_long ds : 4300 < zlen ds -> int_of ds = Err ValueError.
Proof. intros L. unfold int_of. now replace (4300 <? zlen ds) with true by lia. Qed.
Theorem C144_long_ratio : forall sign t u ds es, In sign [[]; s2l "+"; s2l "-"] -> digit_run t ds -> digit_run u es -> 4300 < zlen ds \/ 4300 < zlen es ->
  py_fraction (sign ++ t ++ s2l "/" ++ u) = Err ValueError.
Proof.
  intros sign t u ds es S R1 R2 L. pose proof (form_ratio t u ds es R1 R2) as F. change (s2l "/") with [47]. unfold py_fraction. rewrite (sign_of_app sign _ S (proj2 (form_starts _ _ _ F))).
  unfold unsigned_fraction. rewrite (proj1 (form_starts _ _ _ F)).
  rewrite (grouped_run t ds ([47] ++ u) R1) by (cbn; split; [reflexivity|lia]). cbn [app]. pose proof (grouped_run u es [] R2 I false) as G. rewrite app_nil_r in G. rewrite G.
  destruct (run_starts u es [] R2) as (_ & NE & _). destruct es as [|e es]; [contradiction|]. set (E := e :: es) in *.
  destruct (Z_lt_le_dec 4300 (zlen ds)) as [A|A]; [now rewrite (int_of_long ds A)|]. rewrite (int_of_number ds A). cbn [rbind]. now rewrite (int_of_long E) by lia.
Qed.
Theorem C144_long : forall sign t x ds k, In sign [[]; s2l "+"; s2l "-"] -> digit_run t ds -> exponent_form x k -> 4300 < zlen ds ->
  py_fraction (sign ++ t ++ x) = Err ValueError.
Proof.
  intros sign t x ds k S R X L. pose proof (form_whole t x ds k R X) as F. unfold py_fraction. rewrite (sign_of_app sign _ S (proj2 (form_starts _ _ _ F))).
  unfold unsigned_fraction. rewrite (proj1 (form_starts _ _ _ F)).
  destruct (exponent_of_form x k X) as (b & xs & E & LX & FX & -> & St & N47 & N46). rewrite (grouped_run t ds x R St). rewrite dotless_case by assumption.
  rewrite pointless_case by assumption. rewrite E. now rewrite (int_of_long ds L).
Qed.
Theorem C144_long_point : forall sign t f x ds fs k, In sign [[]; s2l "+"; s2l "-"] -> maybe_run t ds -> maybe_run f fs -> exponent_form x k -> 4300 < zlen ds \/ 4300 < zlen fs ->
  py_fraction (sign ++ t ++ s2l "." ++ f ++ x) = Err ValueError.
Proof.
  intros sign t f x ds fs k S M N X L. change (s2l ".") with [46].
  assert (NE : ds <> [] \/ fs <> []) by (destruct L as [L|L]; [left|right]; intros ->; change (zlen []) with 0 in L; lia).
  pose proof (form_point t f x ds fs k M N NE X) as F. unfold py_fraction. rewrite (sign_of_app sign _ S (proj2 (form_starts _ _ _ F))).
  unfold unsigned_fraction. rewrite (proj1 (form_starts _ _ _ F)).
  destruct (exponent_of_form x k X) as (b & xs & E & LX & FX & -> & St & N47 & N46). rewrite (maybe_grouped t ds ([46] ++ f ++ x) M) by (cbn; split; [reflexivity|lia]). cbn [app].
  rewrite (maybe_grouped f fs x N St). rewrite E.
  destruct (Z_lt_le_dec 4300 (zlen ds)) as [A|A]; [now rewrite (int_of_long ds A)|]. rewrite (int_of_number ds A). cbn [rbind]. now rewrite (int_of_long fs) by lia.
Qed.
Print Assumptions C144_long_ratio.
Print Assumptions C144_long.
Print Assumptions C144_long_point.
Lemma nines_run n : digit_run (repeat 57 (S n)) (repeat 9 (S n)).
Proof. induction n as [|n IH]; [apply (run_one 9); unfold digit; lia|apply (run_next 9); [unfold digit; lia|exact IH]]. Qed.
Example C144_long_example : digit_run (repeat 57 (Z.to_nat 5000)) (repeat 9 (Z.to_nat 5000)) /\ zlen (repeat 9 (Z.to_nat 5000)) = 5000 /\
  exponent_form (s2l "e-1") (-1) /\ py_fraction (s2l "-" ++ repeat 57 (Z.to_nat 5000) ++ s2l "e-1") = Err ValueError.
Proof.
  assert (R : digit_run (repeat 57 (Z.to_nat 5000)) (repeat 9 (Z.to_nat 5000))) by (replace (Z.to_nat 5000) with (S (Z.to_nat 4999)) by lia; apply nines_run).
  assert (Z1 : zlen (repeat 9 (Z.to_nat 5000)) = 5000) by (unfold zlen; rewrite repeat_length; lia).
  assert (X : exponent_form (s2l "e-1") (-1)) by (apply (exp_some 101 [45] [49] [1]); [now right|cbn; auto|apply (run_one 1); unfold digit; lia]).
  split; [exact R|]. split; [exact Z1|]. split; [exact X|]. apply (C144_long _ _ _ _ _ ltac:(cbn; auto) R X). lia.
Qed.
(** Any other text is refused. *)
Theorem C144_refuses : forall s, (forall sign t n d, In sign [[]; s2l "+"; s2l "-"] -> s = sign ++ t -> ~ fraction_form t n d) -> py_fraction s = Err ValueError.
Proof.
  intros s N. unfold py_fraction. destruct (sign_of s) as [b r] eqn:S. destruct (sign_of_inv s b r S) as (sign & I & -> & ->).
  destruct (unsigned_inv (leqb sign [45]) r) as [E|(n & d & F)]; [exact E|]. exfalso. exact (N sign r n d I eq_refl F).
Qed.
Definition fraction_chars : str := s2l "0123456789+-./_eE".
Lemma run_chars u ds c : digit_run u ds -> In c u -> In c fraction_chars.
Proof.
  assert (DC : forall d, digit d -> In (d + 48) fraction_chars).
  { intros d D. unfold digit in D. assert (C : existsb (Z.eqb (d + 48)) fraction_chars = true).
    { assert (B : forallb (fun k => existsb (Z.eqb (Z.of_nat k + 48)) fraction_chars) (seq 0 10) = true) by (vm_compute; reflexivity).
      rewrite forallb_forall in B. specialize (B (Z.to_nat d)). rewrite Z2Nat.id in B by lia. apply B. apply in_seq. lia. }
    apply existsb_exists in C as (x & I & E). apply Z.eqb_eq in E. now rewrite E. }
  induction 1 as [d D|d u ds D R IH|d u ds D R IH]; intros [<-|I]; auto; [destruct I|]. destruct I as [<-|I]; [vm_compute; auto 20|auto].
Qed.
Lemma maybe_chars u ds c : maybe_run u ds -> In c u -> In c fraction_chars.
Proof. intros [[-> _]|R] I; [destruct I|now apply (run_chars u ds)]. Qed.
Lemma sign_chars (sign : str) c : In sign [[]; s2l "+"; s2l "-"] -> In c sign -> In c fraction_chars.
Proof. intros [<-|[<-|[<-|[]]]] I; [destruct I| |]; destruct I as [<-|[]]; vm_compute; auto 20. Qed.
Lemma exp_chars x k c : exponent_form x k -> In c x -> In c fraction_chars.
Proof.
  intros [|e sign t ds E S R] I; [destruct I|]. destruct I as [<-|I]; [destruct E as [->| ->]; vm_compute; auto 20|].
  apply in_app_or in I as [I|I]; [now apply (sign_chars sign)|now apply (run_chars t ds)].
Qed.
Lemma form_chars t n d c : fraction_form t n d -> In c t -> In c fraction_chars.
Proof.
  intros [t' u ds es R1 R2|t' x ds k R X|t' f x ds fs k M N _ X] I.
  - apply in_app_or in I as [I|[<-|I]]; [now apply (run_chars t' ds)|vm_compute; auto 20|now apply (run_chars u es)].
  - apply in_app_or in I as [I|I]; [now apply (run_chars t' ds)|now apply (exp_chars x k)].
  - apply in_app_or in I as [I|[<-|I]]; [now apply (maybe_chars t' ds)|vm_compute; auto 20|].
    change (In c (f ++ x)) in I. apply in_app_or in I as [I|I]; [now apply (maybe_chars f fs)|now apply (exp_chars x k)].
Qed.
(** So a text with another character is refused: no text of a multiple of pi, of a
    radical, of an expression. *)
Theorem C144_foreign : forall s c, In c s -> ~ In c fraction_chars -> py_fraction s = Err ValueError.
Proof.
  intros s c I N. apply C144_refuses. intros sign t n d S -> F. apply N. apply in_app_or in I as [I|I]; [now apply (sign_chars sign)|now apply (form_chars t n d)].
Qed.
Lemma py_refuses_signs : refuses_signs py_fraction.
Proof. intros s I. exists ValueError. split; [|now right]. destruct I as [I|I]; [apply (C144_foreign s 960 I)|apply (C144_foreign s 8730 I)]; vm_compute; intuition discriminate. Qed.
Lemma py_refuses_typed : refuses_typed py_fraction.
Proof. intros s I. exists ValueError. split; [|now right]. destruct I as [I|I]; [apply (C144_foreign s 126 I)|apply (C144_foreign s 110 I)]; vm_compute; intuition discriminate. Qed.
Lemma py_refuses_calls : refuses_calls py_fraction.
Proof. intros s I. exists ValueError. split; [|now right]. apply (C144_foreign s 40 I). vm_compute; intuition discriminate. Qed.
Lemma py_refuses_bars : refuses_bars py_fraction.
Proof. intros r. split; exists ValueError; reflexivity. Qed.
(** The texts of fractions in lowest terms. *)
Lemma text_run ds : Forall digit ds -> ds <> [] -> digit_run (text_of ds) ds.
Proof.
  induction 1 as [|d ds D F IH]; [contradiction|]. intros _. destruct ds as [|e ds]; [now constructor|]. change (text_of (d :: e :: ds)) with (d + 48 :: text_of (e :: ds)). constructor; [exact D|]. apply IH. discriminate.
Qed.
Lemma int_run n : 0 <= n -> digit_run (text_of (digits n)) (digits n).
Proof. intros H. apply text_run; [now apply digits_ok|now apply digits_nonempty]. Qed.
Lemma lowest_unique n d N D : 0 < d -> Z.gcd n d = 1 -> lowest_of n d N D -> N = n /\ D = d.
Proof.
  intros P G (PD & GD & E). assert (A : (d | D)). { apply (Z.gauss d n D); [exists N; lia|now rewrite Z.gcd_comm]. }
  assert (B : (D | d)). { apply (Z.gauss D N d); [exists n; lia|now rewrite Z.gcd_comm]. }
  assert (D = d). { apply Z.divide_antisym_nonneg; auto; lia. } subst D. split; [|reflexivity]. nia.
Qed.
Lemma text_len ds : zlen (text_of ds) = zlen ds. Proof. unfold zlen, text_of. now rewrite map_length. Qed.
Lemma digits_short n k : 0 <= n < 10 ^ Z.of_nat k -> (1 <= k)%nat -> zlen (digits n) <= Z.of_nat k.
Proof. intros H K. pose proof (digits_length_bound n k H K). unfold zlen. lia. Qed.
Theorem C144_shown : reads_fractions py_fraction.
Proof.
  intros n d D G B. unfold fraction_show. cbn [fst snd]. rewrite (str_of_int_text n). rewrite <- app_assoc.
  assert (S : In (minus_of n) [[]; s2l "+"; s2l "-"]) by (unfold minus_of; destruct (n <? 0); cbn; auto).
  assert (SN : (if leqb (minus_of n) (s2l "-") then - Z.abs n else Z.abs n) = n) by (unfold minus_of; destruct (n <? 0) eqn:E; [replace (leqb (s2l "-") (s2l "-")) with true by reflexivity|replace (leqb [] (s2l "-")) with false by reflexivity]; lia).
  assert (L1 : zlen (digits (Z.abs n)) <= 9) by (apply (digits_short (Z.abs n) 9); lia).
  assert (F : exists t, (if d =? 1 then [] else s2l "/" ++ str_of_int d) = t /\ fraction_form (text_of (digits (Z.abs n)) ++ t) (Z.abs n) d /\ zlen t <= 20).
  { destruct (d =? 1) eqn:E1.
    - exists []. assert (d = 1) as -> by lia. split; [reflexivity|]. split; [|vm_compute; discriminate]. pose proof (form_whole _ [] _ 0 (int_run (Z.abs n) ltac:(lia)) exp_none) as FW. rewrite number_digits in FW by lia.
      change (up 10 (- 0)) with 1 in FW. change (up 10 0) with 1 in FW. rewrite Z.mul_1_r in FW. exact FW.
    - exists (s2l "/" ++ text_of (digits d)). rewrite (str_of_int_text d). unfold minus_of at 1. replace (d <? 0) with false by lia. rewrite Z.abs_eq by lia. split; [reflexivity|]. split.
      + pose proof (form_ratio _ _ _ _ (int_run (Z.abs n) ltac:(lia)) (int_run d ltac:(lia))) as FR. rewrite !number_digits in FR by lia. exact FR.
      + rewrite zlen_app, text_len. pose proof (digits_short d 9 ltac:(lia) ltac:(lia)). change (zlen (s2l "/")) with 1. lia. }
  destruct F as (t & -> & F & LT). destruct (C144_reads (minus_of n) _ (Z.abs n) d S F) as [[Z0 _]|(_ & N & D' & E & LO)].
  - rewrite zlen_app, text_len. lia.
  - lia.
  - rewrite SN in LO. destruct (lowest_unique n d N D' ltac:(lia) G LO) as [-> ->]. exact E.
Qed.
Print Assumptions C144_reads.
Print Assumptions C144_refuses.
Print Assumptions C144_foreign.
Print Assumptions C144_shown.
(** ** The texts of decimal numbers *)
Lemma up_shift e k : 0 <= k -> up 10 (e + k) * up 10 (- e) = up 10 e * (10 ^ k * up 10 (- (e + k))).
Proof. intros K. unfold up. rewrite <- !Z.pow_add_r by lia. f_equal. lia. Qed.
Lemma exponent_text e : exponent_form (if e =? 0 then [] else s2l "E" ++ (if 0 <=? e then s2l "+" else []) ++ str_of_int e) e.
Proof.
  destruct (e =? 0) eqn:E; [assert (e = 0) as -> by lia; constructor|]. rewrite str_of_int_text. unfold minus_of. pose proof (int_run (Z.abs e) ltac:(lia)) as R. destruct (0 <=? e) eqn:P.
  - replace (e <? 0) with false by lia. pose proof (exp_some 69 [43] _ _ ltac:(now left) ltac:(cbn; auto) R) as X. rewrite number_digits in X by lia. change (leqb [43] [45]) with false in X. cbv iota in X. rewrite Z.abs_eq in * by lia. exact X.
  - replace (e <? 0) with true by lia. pose proof (exp_some 69 [45] _ _ ltac:(now left) ltac:(cbn; auto) R) as X. rewrite number_digits in X by lia. change (leqb [45] [45]) with true in X. cbv iota in X. replace (- Z.abs e) with e in X by lia. exact X.
Qed.
Lemma exponent_text_len e : zlen (if e =? 0 then [] else s2l "E" ++ (if 0 <=? e then s2l "+" else []) ++ str_of_int e) <= 3 + zlen (digits (Z.abs e)).
Proof.
  pose proof (zlen_nonneg (digits (Z.abs e))). destruct (e =? 0); [change (zlen (@nil Z)) with 0; lia|]. rewrite str_of_int_text, !zlen_app, text_len. change (zlen (s2l "E")) with 1.
  assert (zlen (if 0 <=? e then s2l "+" else []) <= 1) by (destruct (0 <=? e); vm_compute; discriminate). assert (zlen (minus_of e) <= 1) by (unfold minus_of; destruct (e <? 0); vm_compute; discriminate). lia.
Qed.
Lemma dec_form neg c e : 0 <= c -> exists t n d, dec_str (Dec neg c e) = (if neg then s2l "-" else []) ++ t /\ fraction_form t n d /\ 0 < d /\
  n * up 10 (- e) = c * up 10 e * d /\ zlen t <= zlen (digits c) + 12 + zlen (digits (Z.abs (e + zlen (digits c) - 1))).
Proof.
  intros HC. unfold dec_str. cbn [d_neg d_coef d_exp]. pose proof (digits_ok c HC) as DD. pose proof (digits_nonempty c HC) as NE. pose proof (number_digits c HC) as NV.
  set (ds := digits c) in *. clearbody ds. assert (CD : map char_of_digit ds = text_of ds) by reflexivity. rewrite CD, text_len. set (n := zlen ds). cbv zeta.
  assert (L1 : 1 <= n) by (unfold n; destruct ds; [contradiction|]; rewrite zlen_cons; pose proof (zlen_nonneg ds); lia).
  pose proof (zlen_nonneg (digits (Z.abs (e + n - 1)))) as LE.
  assert (U0 : up 10 0 = 1) by reflexivity. assert (UN : up 10 (- 0) = 1) by reflexivity.
  destruct ((e <=? 0) && (-6 <? e + n)) eqn:C.
  - assert (E0 : e <= 0) by lia. assert (UE : up 10 e = 1) by (unfold up; rewrite Z.max_r by lia; reflexivity). assert (UM : up 10 (- e) = 10 ^ (- e)) by (unfold up; rewrite Z.max_l by lia; reflexivity).
    assert (P10 : 0 < 10 ^ (- e)) by (apply Z.pow_pos_nonneg; lia). rewrite UE, UM. rewrite Z.sub_diag. change (0 =? 0) with true. cbv iota. destruct (e + n <=? 0) eqn:C1; [|destruct (n <=? e + n) eqn:C2].
    + set (z := Z.to_nat (- (e + n))). set (fs := repeat 0 z ++ ds). assert (F : Forall digit fs).
      { apply Forall_app. split; auto. apply Forall_forall. intros x I. apply repeat_spec in I. rewrite I. unfold digit. lia. }
      assert (NF : fs <> []) by (unfold fs; intros Q; apply app_eq_nil in Q as [_ Q]; contradiction).
      assert (LF : zlen fs = - e) by (unfold fs; rewrite zlen_app, zlen_repeat; fold n; unfold z; lia).
      assert (VF : number ([0] ++ fs) = c). { unfold fs. rewrite !number_app, number_repeat0, NV. change (number [0]) with 0. lia. }
      exists ((s2l "0." ++ repeat 48 z ++ text_of ds) ++ []), (c * up 10 0), (10 ^ zlen fs * up 10 (- 0)). split; [reflexivity|]. split; [|split; [|split]].
      * rewrite <- VF. replace ((s2l "0." ++ repeat 48 z ++ text_of ds) ++ []) with ([48] ++ [46] ++ text_of fs ++ []) by (unfold fs; rewrite text_app, <- text_repeat0; cbn [app s2l]; rewrite !app_nil_r; reflexivity).
        apply form_point; [right; change [48] with [0 + 48]; constructor; unfold digit; lia|right; now apply text_run|left; discriminate|constructor].
      * rewrite LF, UN. lia.
      * rewrite LF, UN, U0. lia.
      * rewrite !zlen_app, text_len, zlen_repeat. fold n. change (zlen (s2l "0.")) with 2. change (zlen (@nil Z)) with 0. unfold z. lia.
    + assert (e = 0) as -> by lia. exists (text_of ds ++ []), (c * up 10 0), (up 10 (- 0)). replace (Z.to_nat (0 + n - n)) with 0%nat by lia. cbn [repeat]. rewrite !app_nil_r. split; [reflexivity|]. split; [|split; [|split]].
      * rewrite <- NV. rewrite <- (app_nil_r (text_of ds)). apply form_whole; [now apply text_run|constructor].
      * lia.
      * rewrite U0, UN. change (10 ^ (- 0)) with 1. lia.
      * rewrite text_len. fold n. lia.
    + set (k := Z.to_nat (e + n)). assert (K : zlen (firstn k ds) = e + n) by (unfold zlen; rewrite firstn_length; unfold n, zlen, k in *; lia).
      assert (K2 : zlen (skipn k ds) = - e). { pose proof (f_equal zlen (firstn_skipn k ds)) as Q. rewrite zlen_app, K in Q. fold n in Q. lia. }
      exists ((firstn k (text_of ds) ++ s2l "." ++ skipn k (text_of ds)) ++ []), (c * up 10 0), (10 ^ zlen (skipn k ds) * up 10 (- 0)). split; [reflexivity|].
      split; [|split; [|split]].
      * unfold text_of. rewrite firstn_map, skipn_map. fold (text_of (firstn k ds)) (text_of (skipn k ds)). rewrite <- NV. rewrite <- (firstn_skipn k ds) at 3. rewrite <- !app_assoc. apply form_point; [right; apply text_run; [now apply Forall_firstn|]|right; apply text_run; [now apply Forall_skipn|]|left|constructor].
        { intros Q. rewrite Q in K. change (zlen (@nil Z)) with 0 in K. lia. }
        { intros Q. rewrite Q in K2. change (zlen (@nil Z)) with 0 in K2. lia. }
        { intros Q. rewrite Q in K. change (zlen (@nil Z)) with 0 in K. lia. }
      * rewrite K2, UN. lia.
      * rewrite K2, UN, U0. lia.
      * rewrite !zlen_app. pose proof (f_equal zlen (firstn_skipn k (text_of ds))) as Q. rewrite zlen_app, text_len in Q. fold n in Q.
        change (zlen (s2l ".")) with 1. change (zlen (@nil Z)) with 0. lia.
  - change (1 <=? 0) with false. cbv iota. replace (e + n - 1) with (e + (n - 1)) in * by lia. set (e' := e + (n - 1)) in *.
    pose proof (exponent_text e') as XF. pose proof (exponent_text_len e') as XL. set (X := if e' =? 0 then [] else _).
    change (exponent_form X e') in XF. change (zlen X <= 3 + zlen (digits (Z.abs e'))) in XL. clearbody X.
    pose proof (up_shift e (n - 1) ltac:(lia)) as US. fold e' in US.
    assert (PX : 0 < up 10 (- e')) by (apply up_pos; lia).
    destruct (n <=? 1) eqn:C2.
    + replace (Z.to_nat (1 - n)) with 0%nat by lia. cbn [repeat]. rewrite app_nil_r. assert (N1 : n = 1) by lia. exists (text_of ds ++ X), (c * up 10 e'), (up 10 (- e')). split; [reflexivity|]. split; [|split; [|split]].
      * rewrite <- NV. apply form_whole; [now apply text_run|exact XF].
      * exact PX.
      * rewrite <- !Z.mul_assoc. rewrite US. rewrite N1. change (10 ^ (1 - 1)) with 1. rewrite Z.mul_1_l. reflexivity.
      * rewrite zlen_app, text_len. fold n. lia.
    + assert (K : zlen (firstn 1 ds) = 1) by (unfold zlen; rewrite firstn_length; unfold n, zlen in *; lia).
      assert (K2 : zlen (skipn 1 ds) = n - 1). { pose proof (f_equal zlen (firstn_skipn 1 ds)) as Q. rewrite zlen_app, K in Q. fold n in Q. lia. }
      change (Z.to_nat 1) with 1%nat. exists ((firstn 1 (text_of ds) ++ s2l "." ++ skipn 1 (text_of ds)) ++ X), (c * up 10 e'), (10 ^ zlen (skipn 1 ds) * up 10 (- e')). split; [reflexivity|]. split; [|split; [|split]].
      * unfold text_of. rewrite firstn_map, skipn_map. fold (text_of (firstn 1 ds)) (text_of (skipn 1 ds)). rewrite <- NV. rewrite <- (firstn_skipn 1 ds) at 3. rewrite <- !app_assoc.
        apply form_point; [right; apply text_run; [now apply Forall_firstn|]|right; apply text_run; [now apply Forall_skipn|]|left|exact XF].
        { intros Q. rewrite Q in K. change (zlen (@nil Z)) with 0 in K. lia. }
        { intros Q. rewrite Q in K2. change (zlen (@nil Z)) with 0 in K2. lia. }
        { intros Q. rewrite Q in K. change (zlen (@nil Z)) with 0 in K. lia. }
      * rewrite K2. apply Z.mul_pos_pos; [apply Z.pow_pos_nonneg; lia|exact PX].
      * rewrite K2. rewrite <- !Z.mul_assoc. rewrite US. reflexivity.
      * rewrite !zlen_app. pose proof (f_equal zlen (firstn_skipn 1 (text_of ds))) as Q. rewrite zlen_app, text_len in Q. fold n in Q. change (zlen (s2l ".")) with 1. lia.
Qed.
Lemma py_reads_decimal neg c e : 0 <= c < 10 ^ 4000 -> Z.abs e < 10 ^ 20 -> reads_decimal py_fraction (Dec neg c e).
Proof.
  intros HC HE. destruct (dec_form neg c e (proj1 HC)) as (t & n & d & T & F & PD & V & L). unfold reads_decimal. cbn [d_neg d_coef d_exp]. rewrite T.
  assert (LC : zlen (digits c) <= 4000). { pose proof (digits_short c (Z.to_nat 4000)) as Q. rewrite Z2Nat.id in Q by lia. apply Q; [exact HC|lia]. }
  assert (HC0 : 0 <= c) by apply HC. clear HC. pose proof (zlen_nonneg (digits c)).
  assert (LX : zlen (digits (Z.abs (e + zlen (digits c) - 1))) <= 21) by (apply (digits_short _ 21); [change (10 ^ Z.of_nat 21) with (10 ^ 21)|]; lia).
  destruct (C144_reads (if neg then s2l "-" else []) t n d) as [[Z0 _]|(_ & N & D & E & PP & G & LO)]; [destruct neg; cbn; auto|exact F|lia|lia|].
  exists N, D. split; [exact E|]. split; [exact PP|]. split; [exact G|]. apply (Z.mul_cancel_r _ _ d); [lia|].
  replace (N * up 10 (- e) * d) with (N * d * up 10 (- e)) by ring. rewrite LO.
  destruct neg; [replace (leqb (s2l "-") (s2l "-")) with true by reflexivity|replace (leqb [] (s2l "-")) with false by reflexivity]; cbv iota.
  - replace (- n * D * up 10 (- e)) with (- (n * up 10 (- e)) * D) by ring. rewrite V. ring.
  - replace (n * D * up 10 (- e)) with (n * up 10 (- e) * D) by ring. rewrite V. ring.
Qed.
(** ** Floats loaded into fractions *)
Lemma py_reads_float neg m e : 0 <= m <= 2 ^ 53 -> -1074 <= e <= 971 -> reads_decimal py_fraction (dec_of_float neg m e).
Proof.
  intros HM HE. unfold dec_of_float. destruct (float_ratio m e) as [n k] eqn:R.
  assert (B : 0 <= k <= 1074 /\ 0 <= n /\ n * 5 ^ k < 10 ^ 4000).
  { unfold float_ratio in R. destruct (0 <=? e) eqn:E.
    - injection R as <- <-. assert (P : 0 < 2 ^ e) by (apply Z.pow_pos_nonneg; lia). assert (Q : 2 ^ e <= 2 ^ 971) by (apply Z.pow_le_mono_r; lia).
      split; [lia|]. split; [nia|]. change (5 ^ 0) with 1. rewrite Z.mul_1_r. apply (Z.le_lt_trans _ (2 ^ 53 * 2 ^ 971)); [apply Z.mul_le_mono_nonneg; lia|vm_compute; reflexivity].
    - cbv zeta in R. injection R as <- <-. set (g := Z.gcd m (2 ^ (- e))). assert (P : 0 < 2 ^ (- e)) by (apply Z.pow_pos_nonneg; lia).
      assert (G : 0 < g). { unfold g. pose proof (Z.gcd_nonneg m (2 ^ (- e))). destruct (Z.eq_dec (Z.gcd m (2 ^ (- e))) 0) as [Q|]; [apply Z.gcd_eq_0_r in Q|]; lia. }
      assert (K : Z.log2 (2 ^ (- e) / g) <= - e). { rewrite <- (Z.log2_pow2 (- e)) at 2 by lia. apply Z.log2_le_mono. apply Z.div_le_upper_bound; nia. }
      pose proof (Z.log2_nonneg (2 ^ (- e) / g)) as K0. assert (N0 : 0 <= m / g <= m) by (split; [apply Z.div_pos; lia|apply Z.div_le_upper_bound; nia]).
      set (k := Z.log2 (2 ^ (- e) / g)) in *. set (n := m / g) in *. clearbody k n. split; [lia|]. split; [lia|]. assert (Q : 5 ^ k <= 5 ^ 1074) by (apply Z.pow_le_mono_r; lia).
      apply (Z.le_lt_trans _ (2 ^ 53 * 5 ^ 1074)); [|vm_compute; reflexivity]. assert (0 < 5 ^ k) by (apply Z.pow_pos_nonneg; lia). apply Z.mul_le_mono_nonneg; lia. }
  destruct B as (B1 & B2 & B3). apply py_reads_decimal; [|lia]. split; [|exact B3]. apply Z.mul_nonneg_nonneg; [exact B2|apply Z.pow_nonneg; lia].
Qed.
(** Every finite float loaded into a fraction is rounded to the nearest number of 14 digits... *)
Theorem C144_float : forall neg m e d, 0 < m <= 2 ^ 53 -> -1074 <= e <= 971 -> length d = 9%nat -> wf_bytes d ->
  exists M x, near14 (m * up 2 e) (up 2 (- e)) M (x - 141) /\
    (is_byte x -> exists d', load_float py_fraction KRealFraction (FNum neg m e) (Buf true d) = (Buf true d', oret tt) /\ payload (nth 0 d 0 mod 128) neg x M d') /\
    (~ is_byte x -> exists b, load_float py_fraction KRealFraction (FNum neg m e) (Buf true d) = (b, oerr OverflowError)).
Proof. intros neg m e d HM HE. apply C138_nearest; [apply py_reads_float|]; lia. Qed.
(** ... so every fraction comes back from its float. *)
Lemma float_range m e k M : -141 <= k <= 114 -> 10 ^ 13 <= M < 10 ^ 14 -> 2 ^ 52 <= m <= 2 ^ 53 ->
  2 * Z.abs (bin_side m e k - dec_side M k e) <= bin_side 1 e k -> -1074 <= e <= 971.
Proof.
  unfold bin_side, dec_side. intros K HM Hm H. rewrite Z.mul_1_l in H.
  assert (U1 : 1 <= up 10 k <= 10 ^ 114). { pose proof (up_pos 10 k ltac:(lia)). split; [lia|]. unfold up. apply Z.pow_le_mono_r; lia. }
  assert (U2 : 1 <= up 10 (- k) <= 10 ^ 141). { pose proof (up_pos 10 (- k) ltac:(lia)). split; [lia|]. unfold up. apply Z.pow_le_mono_r; lia. }
  set (a := up 10 k) in *. set (b := up 10 (- k)) in *. clearbody a b. split.
  - destruct (Z.le_gt_cases 0 e) as [P|P]; [lia|]. assert (E1 : up 2 e = 1) by (unfold up; rewrite Z.max_r by lia; reflexivity).
    destruct (Z.le_gt_cases (-1074) e) as [Q|Q]; [exact Q|exfalso].
    assert (E2 : 2 ^ 1075 <= up 2 (- e)) by (unfold up; apply Z.pow_le_mono_r; lia). rewrite E1 in H. set (v := up 2 (- e)) in *. clearbody v. rewrite Z.mul_1_r, Z.mul_1_l in H.
    assert (X : 2 * (M * a * v) <= (2 * m + 1) * b) by lia. assert (Y : (2 * m + 1) * b <= (2 * 2 ^ 53 + 1) * 10 ^ 141) by (apply Z.mul_le_mono_nonneg; lia).
    assert (W : 2 ^ 1075 <= M * a * v). { rewrite <- (Z.mul_1_l (2 ^ 1075)). apply Z.mul_le_mono_nonneg; [lia|nia|vm_compute; discriminate|exact E2]. }
    assert (V : (2 * 2 ^ 53 + 1) * 10 ^ 141 < 2 * 2 ^ 1075) by (vm_compute; reflexivity). lia.
  - destruct (Z.le_gt_cases e 0) as [P|P]; [lia|]. assert (E1 : up 2 (- e) = 1) by (unfold up; rewrite Z.max_r by lia; reflexivity).
    destruct (Z.le_gt_cases e 971) as [Q|Q]; [exact Q|exfalso].
    assert (E2 : 2 ^ 972 <= up 2 e) by (unfold up; apply Z.pow_le_mono_r; lia). rewrite E1 in H. set (v := up 2 e) in *. clearbody v. rewrite Z.mul_1_r in H.
    assert (X : (2 * m - 1) * v * b <= 2 * (M * a)) by lia. assert (Y : M * a <= 10 ^ 14 * 10 ^ 114) by (apply Z.mul_le_mono_nonneg; lia).
    assert (W : 2 ^ 972 <= (2 * m - 1) * v * b). { rewrite <- Z.mul_assoc. rewrite <- (Z.mul_1_l (2 ^ 972)). apply Z.mul_le_mono_nonneg; [lia|lia|vm_compute; discriminate|]. rewrite <- (Z.mul_1_r (2 ^ 972)). apply Z.mul_le_mono_nonneg; [vm_compute; discriminate|exact E2|lia|lia]. }
    assert (V : 2 * (10 ^ 14 * 10 ^ 114) < 2 ^ 972) by (vm_compute; reflexivity). lia.
Qed.
Theorem C144_back : forall low neg x M d m e d0, 0 <= low < 128 -> payload low neg x M d -> is_byte x -> 10 ^ 13 <= M < 10 ^ 14 -> real_float (Buf true d) = Ok (FNum neg m e) ->
  length d0 = 9%nat -> wf_bytes d0 ->
  exists d', load_float py_fraction KRealFraction (FNum neg m e) (Buf true d0) = (Buf true d', oret tt) /\ payload (nth 0 d0 0 mod 128) neg x M d'.
Proof.
  intros low neg x M d m e d0 LO P X HM F L0 W0. apply (C138_back py_fraction low neg x M d); auto.
  destruct (real_float_stored low neg x M d LO P X ltac:(lia)) as (m' & e' & F' & B & H). rewrite F in F'. injection F' as <- <-.
  apply py_reads_float; [lia|]. apply (float_range m e (x - 141) M); auto. unfold is_byte in X. lia.
Qed.
(** ** Fractions printed and read back *)
Theorem C144_fraction_reload : forall b slot n d, length slot = 9%nat -> wf_bytes slot -> real_fraction b = Ok (n, d) -> Z.abs n < 10 ^ 5 * d ->
  exists t b', fraction_string b = Ok t /\ fraction_load py_fraction t (Buf true slot) = (b', oret tt) /\ real_fraction b' = Ok (n, d) /\ fraction_string b' = Ok t.
Proof. intros b slot n d. apply C104_fraction_reload. exact C144_shown. Qed.
Print Assumptions C144_float.
Print Assumptions C144_back.
Print Assumptions C144_fraction_reload.
Theorem C144_pi_reload : forall b slot n d, length slot = 9%nat -> wf_bytes slot -> pi_fraction b = Ok (n, d) -> Z.abs n < 10 ^ 4 * d -> d <> 1 \/ n = 0 ->
  exists t b', pi_fraction_string b = Ok t /\ pi_fraction_load py_fraction t (Buf true slot) = (b', oret tt) /\ pi_fraction b' = Ok (n, d) /\ pi_fraction_string b' = Ok t.
Proof. intros b slot n d. apply C104_pi_reload. exact C144_shown. Qed.
Print Assumptions C144_pi_reload.
Example C144_example :
  fraction_form (s2l "1_2.5E-1") (125 * up 10 (-1)) (10 ^ 1 * up 10 (- (-1))) /\ py_fraction (s2l "-1_2.5E-1") = Ok (-5, 4) /\ lowest_of (- (125 * up 10 (-1))) (10 ^ 1 * up 10 1) (-5) 4 /\
  py_fraction (s2l "+6/4") = Ok (3, 2) /\ py_fraction (s2l ".5e3") = Ok (500, 1) /\ py_fraction (s2l "7.") = Ok (7, 1) /\ py_fraction (s2l "1/00") = Err ZeroDivisionError /\
  map py_fraction [s2l ""; s2l "-"; s2l "."; s2l "1__2"; s2l "_1"; s2l "1_"; s2l "1/-2"; s2l "/2"; s2l "1/"; s2l "1.5/2"; s2l "1e"; s2l "1e5/2"; s2l "--1"; s2l "0x10"; s2l "inf"] = repeat (Err ValueError) 15 /\
  py_fraction (repeat 49 (Z.to_nat 4301)) = Err ValueError /\
  ~ In 120 fraction_chars /\ fraction_show (-7, 3) = s2l "-7/3" /\ py_fraction (s2l "-7/3") = Ok (-7, 3) /\
  load_float py_fraction KRealFraction (FNum false 5404319552844595 (-54)) (Buf true (24 :: zeros 8)) = (Buf true [24; 127; 48; 0; 0; 0; 0; 0; 0], oret tt) /\
  fraction_load py_fraction (s2l "-7/3") (Buf true (24 :: zeros 8)) = (Buf true [152; 128; 35; 51; 51; 51; 51; 51; 51], oret tt).
Proof.
  split.
  { change (s2l "1_2.5E-1") with ([1 + 48; 95; 2 + 48] ++ [46] ++ [5 + 48] ++ (69 :: [45] ++ [1 + 48])).
    apply (form_point [1 + 48; 95; 2 + 48] [5 + 48] (69 :: [45] ++ [1 + 48]) [1; 2] [5] (-1)).
    - right. apply run_bar; [unfold digit; lia|]. apply run_one. unfold digit; lia.
    - right. apply run_one. unfold digit; lia.
    - left. discriminate.
    - apply (exp_some 69 [45] [1 + 48] [1]); [now left|cbn; auto|]. apply run_one. unfold digit; lia. }
  split; [vm_compute; reflexivity|]. split; [unfold lowest_of; repeat split; vm_compute; reflexivity|].
  repeat apply conj; try (vm_compute; reflexivity). vm_compute. intuition discriminate.
Qed.
