(** Property theorems C141 and C142: numbers in dictionaries. *)
From Verif Require Import PyBase M_Data M_Numeric M_Class M_Var M_Real M_Complex M_Gdb M_GdbDict M_Float M_Json L_Base S_Data L_Data S_Real L_Real L_Frac S_Float L_Float L_Json.
From Verif Require Import P_Real S_Gdb L_Gdb P_Gdb S_GdbDict L_GdbDict P_GdbDict P_Float.

(** * C141: single numbers *)
Lemma json_form low neg x M d : 0 <= low < 128 -> payload low neg x M d -> is_byte x -> 10 ^ 13 <= M < 10 ^ 14 ->
  exists c k j, 0 < c /\ 0 <= j /\ c * 10 ^ j = M /\ k = x - 141 + j /\
    json_number (Buf true d) = if zlen (float_repr neg c k) <=? 6 then let v := if 0 <=? k then c * 10 ^ (k + 1) else c in Ok (JNum (if neg then - v else v) (Z.min k (-1))) else Ok (JStr (float_repr neg c k)).
Proof.
  intros LO P X HM. apply payload_stored in P; [|lia|lia]. assert (E : Buf true d = stored low neg x M) by (rewrite P; reflexivity). rewrite E. unfold json_number.
  rewrite real_decimal_stored by (auto; unfold is_byte in *; lia). cbn [rbind d_coef d_exp d_neg]. replace (M =? 0) with false by lia. replace (neg && negb false) with neg by (destruct neg; reflexivity).
  destruct (fewest_spec 14 M (x - 141) ltac:(lia)) as (j & J & K & F & C). destruct (fewest 14 M (x - 141)) as [c k]. cbn [fst snd] in *. exists c, k, j. repeat split; auto.
Qed.
Lemma same_value c j M k X : 0 <= j -> c * 10 ^ j = M -> k = X + j -> sci_eq c k M X.
Proof. intros J E K. subst. rewrite (scale_eq _ _ _ _ X) by lia. rewrite Z.sub_diag. change (10 ^ 0) with 1. replace (X + j - X) with j by lia. lia. Qed.
Lemma json_new j b : json_load j (Buf true (zeros 9)) = (b, oret tt) -> json_real j = oret (b_data b).
Proof. intros E. unfold json_real. change (real_fresh KReal) with (@oret buffer (Buf true (zeros 9))). rewrite obind_oret, E. reflexivity. Qed.
(** A long number becomes a text, from which it comes back exactly. *)
Theorem C141_text : forall low neg x M d s, 0 <= low < 128 -> payload low neg x M d -> is_byte x -> 10 ^ 13 <= M < 10 ^ 14 ->
  json_number (Buf true d) = Ok (JStr s) -> 6 < zlen s /\ exists d', json_real (JStr s) = oret d' /\ payload 0 neg x M d'.
Proof.
  intros low neg x M d s LO P X HM J. destruct (json_form low neg x M d LO P X HM) as (c & k & j & C & J0 & CM & K & F). rewrite F in J. destruct (zlen (float_repr neg c k) <=? 6) eqn:L; [discriminate J|].
  assert (S : float_repr neg c k = s) by congruence. rewrite S in L. split; [lia|]. destruct (float_repr_literal neg c k ltac:(lia) ltac:(lia)) as (l & i & W & T & Q & N & I & LC & LS). rewrite S in T.
  pose proof (real_load_spec l s 0 0 (zeros 7) W ltac:(rewrite T; exact Q) eq_refl ltac:(unfold is_byte; lia)) as [_ R].
  assert (P10 : 0 < 10 ^ i) by (apply Z.pow_pos_nonneg; lia). destruct R as (m & y & TR & R); [rewrite LC; nia|].
  assert (EQ : sci_eq (lit_coef l) (lit_scale l) M (x - 141)).
  { rewrite LC, LS. set (z := Z.min (k - i) (x - 141)). rewrite (scale_eq _ _ _ _ z) by lia. subst M. replace (x - 141) with (k - j) by lia. assert (z <= k) by lia.
    rewrite <- !Z.mul_assoc, <- !Z.pow_add_r by lia. do 2 f_equal. lia. }
  apply (truncated14_cong _ _ M (x - 141)) in TR; [|exact EQ].
  assert (TM : truncated14 M (x - 141) M (x - 141)) by (split; [lia|]; split; [unfold sci_le; lia|unfold sci_lt; rewrite Z.min_id, Z.sub_diag; change (10 ^ 0) with 1; lia]).
  destruct (truncated14_unique _ _ _ _ _ _ TR TM) as [-> EY]. assert (y = x) as -> by lia. replace (is_byteb x) with true in R by (unfold is_byteb, is_byte in *; lia). rewrite N in R.
  exists (b_data (stored 0 neg x M)). split; [exact (json_new (JStr s) _ R)|]. apply (stored_payload 0). lia.
Qed.
(** A short number, of at most six characters, becomes a float of the same decimal value; it
    comes back exactly if that float is not below it in absolute value. *)
Theorem C141_number : forall low neg x M d n k, 0 <= low < 128 -> payload low neg x M d -> is_byte x -> 10 ^ 13 <= M < 10 ^ 14 ->
  json_number (Buf true d) = Ok (JNum n k) -> k < 0 /\ n <> 0 /\ (n <? 0) = neg /\ sci_eq (Z.abs n) k M (x - 141) /\
    (exists l, lit_wf l /\ lit_neg l = neg /\ sci_eq (lit_coef l) (lit_scale l) M (x - 141) /\ zlen (lit_text l) <= 6) /\
    forall m e, real_float (Buf true d) = Ok (FNum neg m e) -> ((exists d', json_real (JNum n k) = oret d' /\ payload 0 neg x M d') <-> dec_le_bin M (x - 141) m e).
Proof.
  intros low neg x M d n k LO P X HM J. destruct (json_form low neg x M d LO P X HM) as (c & k' & j & C & J0 & CM & K & F). rewrite F in J. destruct (zlen (float_repr neg c k') <=? 6) eqn:L; [|discriminate J]. cbv zeta in J.
  set (v := if 0 <=? k' then c * 10 ^ (k' + 1) else c) in *.
  assert (V : 0 < v) by (unfold v; destruct (0 <=? k') eqn:K'; [assert (0 < 10 ^ (k' + 1)) by (apply Z.pow_pos_nonneg; lia); nia|exact C]).
  assert (EN : n = (if neg then - v else v) /\ k = Z.min k' (-1)) by (split; congruence). destruct EN as [-> ->]. clear J F.
  assert (A : Z.abs (if neg then - v else v) = v) by (destruct neg; lia). assert (NG : ((if neg then - v else v) <? 0) = neg) by (destruct neg; lia). rewrite A, NG.
  assert (EQ : sci_eq v (Z.min k' (-1)) M (x - 141)).
  { set (z := Z.min (Z.min k' (-1)) (x - 141)). rewrite (scale_eq _ _ _ _ z) by lia. subst M. replace (x - 141) with (k' - j) by lia. unfold v. destruct (0 <=? k') eqn:K'.
    - rewrite <- !Z.mul_assoc, <- !Z.pow_add_r by lia. do 2 f_equal. lia.
    - rewrite <- !Z.mul_assoc, <- !Z.pow_add_r by lia. do 2 f_equal. lia. }
  split; [lia|]. split; [lia|]. split; [reflexivity|]. split; [exact EQ|]. split.
  { destruct (float_repr_literal neg c k' ltac:(lia) ltac:(lia)) as (l & i & W & T & Q & N & I & LC & LS). exists l. split; [exact W|]. split; [exact N|]. split; [|rewrite <- T; lia].
    rewrite LC, LS. set (z := Z.min (k' - i) (x - 141)). rewrite (scale_eq _ _ _ _ z) by lia. subst M. replace (x - 141) with (k' - j) by lia. assert (z <= k') by lia.
    rewrite <- !Z.mul_assoc, <- !Z.pow_add_r by lia. do 2 f_equal. lia. }
  intros m e FL. assert (FS : float_of_dec (Dec neg v (Z.min k' (-1))) = FNum neg m e).
  { rewrite (float_of_dec_same neg v _ M (x - 141)) by (auto; lia). pose proof P as P'. apply payload_stored in P'; [|lia|lia]. assert (E : Buf true d = stored low neg x M) by (rewrite P'; reflexivity). rewrite E in FL. unfold real_float in FL.
    rewrite real_decimal_stored in FL by (auto; unfold is_byte in *; lia). cbn [rbind] in FL. replace (neg && negb (M =? 0)) with neg in FL by (destruct neg; cbn; lia). congruence. }
  pose proof (C137_back_iff (fun _ => Err ValueError) KReal low neg x M d m e (zeros 9) ltac:(now left) LO P X HM FL eq_refl zeros9_wf) as BI. change (nth 0 (zeros 9) 0 mod 128) with 0 in BI. rewrite <- BI.
  assert (JL : json_load (JNum (if neg then - v else v) (Z.min k' (-1))) (Buf true (zeros 9)) = load_float (fun _ => Err ValueError) KReal (FNum neg m e) (Buf true (zeros 9))).
  { unfold json_load. replace (Z.min k' (-1) =? 0) with false by lia. rewrite NG, A, FS. reflexivity. }
  split.
  - intros (d' & R & Q). unfold json_real in R. change (real_fresh KReal) with (@oret buffer (Buf true (zeros 9))) in R. rewrite obind_oret, JL in R. 
    destruct (C136_cut (fun _ => Err ValueError) KReal neg m e (zeros 9)) as (M' & x' & T & R1 & R2); [now left| |reflexivity|apply zeros9_wf|].
    { destruct (real_float_stored low neg x M d LO P X ltac:(lia)) as (m' & e' & F' & B & _). rewrite FL in F'. injection F' as <- <-. lia. }
    destruct (is_byteb x') eqn:BX.
    + destruct R1 as (d'' & E & Q'); [unfold is_byteb, is_byte in *; lia|]. rewrite E in R. apply (f_equal snd) in R. cbn [snd oret] in R. unfold oret in R. exists d''. split; [exact E|]. cbn in R. assert (d'' = d') as -> by congruence. exact Q.
    + destruct R2 as (b & E); [unfold is_byteb, is_byte in *; lia|]. rewrite E in R. discriminate R.
  - intros (d' & E & Q). exists d'. split; [|exact Q]. rewrite E in JL. exact (json_new _ _ JL).
Qed.
Theorem C141_zero : forall low neg x d, 0 <= low < 128 -> payload low neg x 0 d -> is_byte x ->
  json_number (Buf true d) = Ok (JNum 0 (-1)) /\ json_real (JNum 0 (-1)) = oret [0; 128; 0; 0; 0; 0; 0; 0; 0].
Proof.
  intros low neg x d LO P X. apply payload_stored in P; [|lia|lia]. assert (E : Buf true d = stored low neg x 0) by (rewrite P; reflexivity). rewrite E. split; [|vm_compute; reflexivity]. unfold json_number.
  rewrite real_decimal_stored by (auto; unfold is_byte in *; lia). cbn [rbind]. change (negb (0 =? 0)) with false. rewrite andb_false_r. reflexivity.
Qed.
(** Whole numbers shown by [int()] come back exactly up to ten to the fourteenth. *)
Theorem C141_whole : forall low neg x M d, 0 <= low < 128 -> payload low neg x M d -> 0 <= x <= 141 -> 10 ^ 13 <= M < 10 ^ 14 -> (10 ^ (141 - x) | M) ->
  exists n d', json_whole (Buf true d) = Ok (JNum n 0) /\ json_real (JNum n 0) = oret d' /\ payload 0 neg x M d'.
Proof.
  intros low neg x M d LO P X HM [i I]. unfold json_whole. rewrite (C140_cut low neg x M d LO P X HM). cbn [rbind]. assert (PT : 0 < 10 ^ (141 - x)) by (apply Z.pow_pos_nonneg; lia).
  assert (D : M / 10 ^ (141 - x) = i) by (rewrite I; apply Z.div_mul; lia). rewrite D. assert (IP : 0 < i) by nia. assert (IL : i < 10 ^ 14) by nia.
  assert (A : Z.abs (signed neg i) = i) by (unfold signed; destruct neg; lia).
  assert (NZ : signed neg i <> 0) by (unfold signed; destruct neg; lia).
  assert (B : Z.abs (signed neg i) < 10 ^ 4300) by (rewrite A; apply Z.lt_le_trans with (10 ^ 14); [exact IL|apply Z.pow_le_mono_r; [reflexivity|discriminate]]).
  destruct (C136_int (signed neg i) (zeros 9) NZ B eq_refl zeros9_wf) as (M' & x' & T & _ & R & _). clear B. rewrite A in T.
  assert (EQ : sci_eq i 0 M (x - 141)).
  { rewrite (scale_eq _ _ _ _ (x - 141)) by lia. rewrite Z.sub_diag. change (10 ^ 0) with 1. replace (0 - (x - 141)) with (141 - x) by lia. lia. }
  apply (truncated14_cong _ _ M (x - 141)) in T; [|exact EQ].
  assert (TM : truncated14 M (x - 141) M (x - 141)) by (split; [lia|]; split; [unfold sci_le; lia|unfold sci_lt; rewrite Z.min_id, Z.sub_diag; change (10 ^ 0) with 1; lia]).
  destruct (truncated14_unique _ _ _ _ _ _ T TM) as [-> EY]. assert (x' = x) as -> by lia. destruct R as (d' & E & Q); [unfold is_byte; lia|]. change (nth 0 (zeros 9) 0 mod 128) with 0 in Q.
  exists (signed neg i), d'. split; [reflexivity|]. split; [exact (json_new (JNum (signed neg i) 0) _ E)|]. replace (signed neg i <? 0) with neg in Q by (unfold signed; destruct neg; lia). exact Q.
Qed.
(** Two stored numbers with the same float are the same, so that the shortest text of a
    float is that of the stored number. *)
Theorem C141_unique : forall low neg x M d low' x' M' d' m e, 0 <= low < 128 -> payload low neg x M d -> is_byte x -> 10 ^ 13 <= M < 10 ^ 14 ->
  0 <= low' < 128 -> payload low' neg x' M' d' -> is_byte x' -> 10 ^ 13 <= M' < 10 ^ 14 -> real_float (Buf true d) = Ok (FNum neg m e) -> real_float (Buf true d') = Ok (FNum neg m e) -> x = x' /\ M = M'.
Proof.
  intros low neg x M d low' x' M' d' m e LO P X HM LO' P' X' HM' F F'.
  destruct (real_float_stored low neg x M d LO P X ltac:(lia)) as (m1 & e1 & F1 & B1 & H1). rewrite F in F1. injection F1 as <- <-. pose proof (float_close m e M (x - 141) ltac:(lia) ltac:(lia) H1) as CL.
  destruct (real_float_stored low' neg x' M' d' LO' P' X' ltac:(lia)) as (m1 & e1 & F1 & _ & H2). rewrite F' in F1. injection F1 as <- <-. pose proof (float_close m e M' (x' - 141) ltac:(lia) ltac:(lia) H2) as CL'.
  assert (N : near14 (m * up 2 e) (up 2 (- e)) M (x - 141)).
  { unfold bin_side, dec_side in CL. rewrite Z.mul_1_l in CL. pose proof (up_pos 10 (x - 141) ltac:(lia)) as U1. pose proof (up_pos 2 (- e) ltac:(lia)) as U2. split; [exact HM|].
    set (a := m * up 2 e * up 10 (- (x - 141))) in *. set (b := M * up 10 (x - 141) * up 2 (- e)) in *. set (u := up 10 (x - 141) * up 2 (- e)) in *. clearbody a b u. clear - CL. lia. }
  destruct (near14_back m e M' (x' - 141) M (x - 141) HM' CL' N) as [-> E]. split; [lia|reflexivity].
Qed.
(** 0.3 is short, and its float is below it. *)
Theorem C141_number_refuted : json_number (Buf true tenths3) = Ok (JNum 3 (-1)) /\ json_real (JNum 3 (-1)) = oret [0; 127; 41; 153; 153; 153; 153; 153; 153] /\
  payload 0 false 127 30000000000000 tenths3 /\ payload 0 false 127 29999999999999 [0; 127; 41; 153; 153; 153; 153; 153; 153].
Proof. split; [vm_compute; reflexivity|]. split; [vm_compute; reflexivity|]. split; [apply (stored_payload 0 false 127 30000000000000); lia|apply (stored_payload 0 false 127 29999999999999); lia]. Qed.
Print Assumptions C141_text.
Print Assumptions C141_number.
Print Assumptions C141_whole.
Print Assumptions C141_unique.
(** -1234.5 and 5E16 are numbers or texts by their length; 10 as an integer. *)
Example C141_example : json_number (Buf true [128; 131; 18; 52; 80; 0; 0; 0; 0]) = Ok (JStr (s2l "-1234.5")) /\ json_real (JStr (s2l "-1234.5")) = oret [128; 131; 18; 52; 80; 0; 0; 0; 0] /\
  json_number (Buf true [0; 144; 80; 0; 0; 0; 0; 0; 0]) = Ok (JNum 500000000000000000 (-1)) /\ json_number (Buf true [0; 124; 18; 52; 80; 0; 0; 0; 0]) = Ok (JStr (s2l "0.00012345")) /\
  json_number (Buf true [0; 123; 18; 52; 80; 0; 0; 0; 0]) = Ok (JStr (s2l "1.2345e-05")) /\ json_whole (Buf true [0; 129; 16; 0; 0; 0; 0; 0; 0]) = Ok (JNum 10 0).
Proof. repeat (split; [vm_compute; reflexivity|]). vm_compute. reflexivity. Qed.

(** * C143: settings that must be whole *)
Lemma float_whole low neg x M d m e : 0 <= low < 128 -> payload low neg x M d -> is_byte x -> 10 ^ 13 <= M < 10 ^ 14 -> real_float (Buf true d) = Ok (FNum neg m e) ->
  (0 <=? e) || (m mod 2 ^ (- e) =? 0) = true <-> 141 <= x \/ (10 ^ (141 - x) | M).
Proof.
  intros LO P X HM F. destruct (real_float_stored low neg x M d LO P X ltac:(lia)) as (m' & e' & F' & B & H). rewrite F in F'. injection F' as <- <-. pose proof (float_close m e M (x - 141) ltac:(lia) ltac:(lia) H) as CL.
  destruct (Z.le_gt_cases x 141) as [X1|X1].
  - pose proof (float_fractional m e M x X1 ltac:(lia) ltac:(lia) H) as E. assert (P2 : 0 < 2 ^ (- e)) by (apply Z.pow_pos_nonneg; lia). split.
    + intros W. right. assert (D : m mod 2 ^ (- e) = 0) by lia. apply Z.mod_divide in D; [|lia]. destruct D as [q Q]. exists q.
      unfold bin_side, dec_side, up in CL. replace (Z.max e 0) with 0 in CL by lia. replace (Z.max (x - 141) 0) with 0 in CL by lia. replace (Z.max (- e) 0) with (- e) in CL by lia. replace (Z.max (- (x - 141)) 0) with (141 - x) in CL by lia. change (2 ^ 0) with 1 in CL. change (10 ^ 0) with 1 in CL.
      subst m. set (t := 10 ^ (141 - x)) in *. set (p := 2 ^ (- e)) in *. clearbody t p. clear - CL P2. replace (q * p * 1 * t - M * 1 * p) with ((q * t - M) * p) in CL by ring. rewrite Z.abs_mul, (Z.abs_eq p) in CL by lia. nia.
    + intros D. assert (D' : (10 ^ (141 - x) | M)) by (destruct D as [D|D]; [replace x with 141 by lia; apply Z.divide_1_l|exact D]). clear D. destruct D' as [i I].
      destruct (C137_exact low neg x M d m e (i * 2 ^ (- e)) LO P X HM F) as [Q _]. { unfold bin_eq_dec, bin_side, dec_side, up. replace (Z.max e 0) with 0 by lia. replace (Z.max (x - 141) 0) with 0 by lia. replace (Z.max (- e) 0) with (- e) by lia. replace (Z.max (- (x - 141)) 0) with (141 - x) by lia. change (2 ^ 0) with 1. change (10 ^ 0) with 1. rewrite I. ring. }
      rewrite <- Q, Z.mod_mul by lia. apply orb_true_r.
  - split; [intros _; lia|]. intros _. destruct (Z.le_gt_cases 0 e) as [E|E]; [replace (0 <=? e) with true by lia; reflexivity|]. replace (0 <=? e) with false by lia. cbn [orb].
    (* a float of at least ten to the fourteenth, less than two to the fifty-third *)
    set (N := M * 10 ^ (x - 141)). unfold bin_side, dec_side, up in H. replace (Z.max e 0) with 0 in H by lia. replace (Z.max (x - 141) 0) with (x - 141) in H by lia. replace (Z.max (- e) 0) with (- e) in H by lia. replace (Z.max (- (x - 141)) 0) with 0 in H by lia. change (2 ^ 0) with 1 in H. change (10 ^ 0) with 1 in H. fold N in H.
    replace (m * 1 * 1 - N * 2 ^ (- e)) with (m - N * 2 ^ (- e)) in H by ring. assert (Z.even (2 ^ (- e)) = true) by (replace (- e) with (Z.succ (- e - 1)) by lia; rewrite Z.pow_succ_r by lia; rewrite Z.even_mul; reflexivity).
    assert (m = N * 2 ^ (- e)) as -> by lia. assert (2 ^ (- e) <> 0) by (apply Z.pow_nonzero; lia). rewrite Z.mod_mul by assumption. reflexivity.
Qed.
Lemma misfit_form low neg x M d : 0 <= low < 128 -> payload low neg x M d -> is_byte x -> 10 ^ 13 <= M < 10 ^ 14 ->
  exists m e, real_float (Buf true d) = Ok (FNum neg m e) /\ forall xres, exists n, real_int (Buf true d) = Ok n /\
    real_misfit xres (Buf true d) = Ok (negb ((0 <=? e) || (m mod 2 ^ (- e) =? 0)) || (xres && negb ((1 <=? n) && (n <=? 8)))).
Proof.
  intros LO P X HM. destruct (real_float_stored low neg x M d LO P X ltac:(lia)) as (m & e & F & _). exists m, e. split; [exact F|]. intros xres. unfold real_int, real_misfit. rewrite F. cbn [rbind float_int float_is_int]. eexists. split; reflexivity.
Qed.
(** The check for whole numbers, which compares floats, is right about every stored number. *)
Theorem C143_whole : forall low neg x M d, 0 <= low < 128 -> payload low neg x M d -> is_byte x -> 10 ^ 13 <= M < 10 ^ 14 ->
  exists w, real_misfit false (Buf true d) = Ok w /\ (w = false <-> 141 <= x \/ (10 ^ (141 - x) | M)).
Proof.
  intros low neg x M d LO P X HM. destruct (misfit_form low neg x M d LO P X HM) as (m & e & F & R). destruct (R false) as (n & _ & E). eexists. split; [exact E|]. cbn [andb]. rewrite orb_false_r, negb_false_iff. exact (float_whole low neg x M d m e LO P X HM F).
Qed.
(** Of [Xres]: no warning exactly for the numbers 1 to 8. *)
Theorem C143_xres : forall low neg x M d, 0 <= low < 128 -> payload low neg x M d -> is_byte x -> 10 ^ 13 <= M < 10 ^ 14 ->
  exists w, real_misfit true (Buf true d) = Ok w /\ (w = false <-> neg = false /\ exists n, 1 <= n <= 8 /\ x = 128 /\ M = n * 10 ^ 13).
Proof.
  intros low neg x M d LO P X HM. destruct (misfit_form low neg x M d LO P X HM) as (m & e & F & R). destruct (R true) as (n & I & E). eexists. split; [exact E|]. cbn [andb]. rewrite orb_false_iff, !negb_false_iff, (float_whole low neg x M d m e LO P X HM F). clear E R F m e.
  destruct (Z.le_gt_cases x 141) as [X1|X1].
  - rewrite (C140_cut low neg x M d LO P ltac:(unfold is_byte in X; lia) HM) in I. assert (N : n = signed neg (M / 10 ^ (141 - x))) by congruence. clear I. assert (PT : 0 < 10 ^ (141 - x)) by (apply Z.pow_pos_nonneg; lia). split.
    + intros [W N8]. assert (D : (10 ^ (141 - x) | M)) by (destruct W as [W|W]; [replace x with 141 by lia; apply Z.divide_1_l|exact W]). clear W. destruct D as [i I]. rewrite I, Z.div_mul in N by lia. assert (IP : 0 < i) by nia. destruct neg; unfold signed in N; [lia|]. split; [reflexivity|]. exists n. subst n. split; [lia|].
      assert (X0 : x = 128). { destruct (Z.lt_trichotomy x 128) as [L|[L|L]]; [|exact L|]; exfalso.
        - assert (10 ^ 14 <= 10 ^ (141 - x)) by (apply Z.pow_le_mono_r; lia). nia.
        - assert (10 ^ (141 - x) <= 10 ^ 12) by (apply Z.pow_le_mono_r; lia). nia. }
      split; [exact X0|]. rewrite I, X0. reflexivity.
    + intros [-> (k & K & X0 & Q)]. subst x M. change (141 - 128) with 13 in *. rewrite Z.div_mul in N by lia. unfold signed in N. split; [right; apply Z.divide_factor_r|lia].
  - split; [intros [_ N8]|intros [_ (k & _ & X0 & _)]; lia]. exfalso.
    destruct (real_float_stored low neg x M d LO P X ltac:(lia)) as (m & e & F & B & H). unfold real_int in I. rewrite F in I. cbn [rbind float_int] in I.
    unfold bin_side, dec_side, up in H. replace (Z.max (x - 141) 0) with (x - 141) in H by lia. replace (Z.max (- (x - 141)) 0) with 0 in H by lia. change (10 ^ 0) with 1 in H.
    assert (T : 10 <= 10 ^ (x - 141)) by (change 10 with (10 ^ 1) at 1; apply Z.pow_le_mono_r; lia).
    destruct (0 <=? e) eqn:E.
    + assert (1 <= 2 ^ e) by (apply (Z.pow_le_mono_r 2 0 e); lia). assert (2 ^ 52 <= m * 2 ^ e) by nia. destruct neg; assert (Q := f_equal (fun r => match r with Ok z => z | Err _ => 0 end) I); cbn in Q; lia.
    + replace (Z.max e 0) with 0 in H by lia. replace (Z.max (- e) 0) with (- e) in H by lia. change (2 ^ 0) with 1 in H. assert (P2 : 0 < 2 ^ (- e)) by (apply Z.pow_pos_nonneg; lia). set (p := 2 ^ (- e)) in *. clearbody p.
      assert (10 * p <= m). { assert (10 ^ 13 * 10 * p <= M * 10 ^ (x - 141) * p) by (apply Z.mul_le_mono_nonneg_r; [lia|apply Z.mul_le_mono_nonneg; lia]). lia. }
      assert (10 <= m / p) by (apply Z.div_le_lower_bound; lia). destruct neg; assert (Q := f_equal (fun r => match r with Ok z => z | Err _ => 0 end) I); cbn in Q; lia.
Qed.
Theorem C143_zero : forall low neg x d, 0 <= low < 128 -> payload low neg x 0 d -> is_byte x -> real_misfit false (Buf true d) = Ok false /\ real_misfit true (Buf true d) = Ok true.
Proof.
  intros low neg x d LO P X. apply payload_stored in P; [|lia|lia]. assert (E : Buf true d = stored low neg x 0) by (rewrite P; reflexivity). rewrite E. unfold real_misfit, real_float.
  rewrite real_decimal_stored by (auto; unfold is_byte in *; lia). cbn [rbind]. change (negb (0 =? 0)) with false. rewrite andb_false_r. rewrite float_of_dec_up. split; reflexivity.
Qed.
Print Assumptions C143_whole.
Print Assumptions C143_xres.
Print Assumptions C143_zero.
(** 8 and -3, 8.0000000000001, 9, and 1E23. *)
Example C143_example : real_misfit true (Buf true [0; 128; 128; 0; 0; 0; 0; 0; 0]) = Ok false /\ real_misfit true (Buf true [128; 128; 48; 0; 0; 0; 0; 0; 0]) = Ok true /\
  real_misfit false (Buf true [128; 128; 48; 0; 0; 0; 0; 0; 0]) = Ok false /\ real_misfit false (Buf true [0; 128; 128; 0; 0; 0; 0; 0; 1]) = Ok true /\
  real_misfit true (Buf true [0; 128; 144; 0; 0; 0; 0; 0; 0]) = Ok true /\ real_misfit false (Buf true [0; 151; 16; 0; 0; 0; 0; 0; 0]) = Ok false /\
  payload 0 false 128 80000000000000 [0; 128; 128; 0; 0; 0; 0; 0; 0].
Proof. repeat (split; [vm_compute; reflexivity|]). apply (stored_payload 0 false 128 80000000000000). lia. Qed.

(** * C142: the numbers of a GDB *)
Definition shown_number (b : bytes) : out jv := olift (json_number (Buf true b)).
Definition shown_whole (b : bytes) : out jv := olift (json_whole (Buf true b)).
(** A decimal number that its form in the dictionary keeps: zero; a whole number where the
    form is an integer; a long number; a short one whose float is not below it. *)
Definition number_kept (whole : bool) (b : bytes) : Prop := exists neg x M, payload 0 neg x M b /\
  ((neg = false /\ x = 128 /\ M = 0) \/
   (is_byte x /\ 10 ^ 13 <= M < 10 ^ 14 /\
    if whole then x <= 141 /\ (10 ^ (141 - x) | M)
    else (exists s, json_number (Buf true b) = Ok (JStr s)) \/ forall m e, real_float (Buf true b) = Ok (FNum neg m e) -> dec_le_bin M (x - 141) m e)).
Lemma kept_back whole b : number_kept whole b -> exists j, (if whole then shown_whole else shown_number) b = oret j /\ json_real j = oret b.
Proof.
  intros (neg & x & M & P & H).
  assert (SAME : forall d', 0 <= M < 10 ^ 14 -> payload 0 neg x M d' -> d' = b).
  { intros d' HM Q. apply payload_stored in P, Q; try lia. unfold stored in *. cbn [b_data] in *. congruence. }
  destruct H as [(-> & -> & ->)|(X & HM & H)].
  - assert (B0 : b = [0; 128; 0; 0; 0; 0; 0; 0; 0]) by (apply payload_stored in P; [exact P|lia|lia]). subst b. destruct whole.
    + exists (JNum 0 0). split; vm_compute; reflexivity.
    + exists (JNum 0 (-1)). split; vm_compute; reflexivity.
  - destruct whole.
    + destruct H as [X1 D]. destruct (C141_whole 0 neg x M b ltac:(lia) P ltac:(unfold is_byte in X; lia) HM D) as (n & d' & E & R & Q). exists (JNum n 0). split; [unfold shown_whole; rewrite E; reflexivity|]. rewrite R. f_equal. apply SAME; [lia|exact Q].
    + destruct (json_number (Buf true b)) as [[| |n k|s| |]|err] eqn:J.
      3: { destruct (C141_number 0 neg x M b n k ltac:(lia) P X HM J) as (_ & _ & _ & _ & _ & BI). destruct (real_float_stored 0 neg x M b ltac:(lia) P X ltac:(lia)) as (m & e & F & _).
        assert (DB : dec_le_bin M (x - 141) m e) by (destruct H as [(s & H)|H]; [discriminate H|now apply H]). destruct (proj2 (BI m e F) DB) as (d' & R & Q). exists (JNum n k). split; [unfold shown_number; rewrite J; reflexivity|]. rewrite R. f_equal. apply SAME; [lia|exact Q]. }
      3: { destruct (C141_text 0 neg x M b s ltac:(lia) P X HM J) as (_ & d' & R & Q). exists (JStr s). split; [unfold shown_number; rewrite J; reflexivity|]. rewrite R. f_equal. apply SAME; [lia|exact Q]. }
      all: exfalso; destruct (json_form 0 neg x M b ltac:(lia) P X HM) as (c & k & j & _ & _ & _ & _ & F); rewrite J in F; destruct (zlen (float_repr neg c k) <=? 6); discriminate F.
Qed.
(** The numbers come back, and with C110 the whole GDB. *)
Definition form_of (whole : bool) (b : bytes) : jv := match snd ((if whole then shown_whole else shown_number) b) with Ok j => j | Err _ => JNull end.
(** [Xres] of a function GDB is from 1 to 8. *)
Definition xres_fits (c : cls) (g : gdb) : Prop := In c [KMonoFunc; KFunc] -> exists n, 1 <= n <= 8 /\ number_at (g_head g) 6 = [0; 128; 16 * n; 0; 0; 0; 0; 0; 0].
Lemma fits_quiet c g k : (k < length (params c))%nat -> xres_fits c g -> number_kept (whole_at c k) (number_at (g_head g) (shown_at c k)) -> graph_misfit (nth k (params c) []) (number_at (g_head g) (shown_at c k)) = false.
Proof.
  intros K XF N. unfold graph_misfit. destruct (existsb (leqb (nth k (params c) [])) whole_names) eqn:W; [|reflexivity].
  assert (D : (leqb (nth k (params c) []) (s2l "Xres") = true /\ In c [KMonoFunc; KFunc] /\ k = 6%nat) \/ (leqb (nth k (params c) []) (s2l "Xres") = false /\ whole_at c k = true)).
  { clear - K W. assert (T : forallb (fun k => let n := nth k (params c) [] in negb (existsb (leqb n) whole_names) || (if leqb n (s2l "Xres") then match c with KMonoFunc | KFunc => Nat.eqb k 6 | _ => false end else whole_at c k)) (seq 0 (length (params c))) = true) by (destruct c; vm_compute; reflexivity).
    rewrite forallb_forall in T. specialize (T k ltac:(apply in_seq; lia)). cbv zeta in T. rewrite W in T. cbn [negb orb] in T. destruct (leqb (nth k (params c) []) (s2l "Xres")); [left|right; split; [reflexivity|exact T]].
    destruct c; try discriminate T; apply Nat.eqb_eq in T; (split; [reflexivity|split; [cbn; tauto|exact T]]). }
  destruct D as [(-> & IC & ->)|(-> & WA)].
  - destruct (XF IC) as (n & Hn & E). assert (S : shown_at c 6 = 6%nat) by (unfold shown_at; rewrite andb_false_r; reflexivity). rewrite S, E.
    assert (n = 1 \/ n = 2 \/ n = 3 \/ n = 4 \/ n = 5 \/ n = 6 \/ n = 7 \/ n = 8) as D by lia. repeat destruct D as [->|D]; [..|subst n]; vm_compute; reflexivity.
  - rewrite WA in N. destruct N as (neg & x & M & P & H). destruct H as [(-> & -> & ->)|(X & HM & X1 & D)].
    + destruct (C143_zero 0 false 128 _ ltac:(lia) P ltac:(unfold is_byte; lia)) as [-> _]. reflexivity.
    + destruct (C143_whole 0 neg x M _ ltac:(lia) P X HM) as (w & -> & I). apply I. now right.
Qed.
Theorem C142_numbers : forall c g, xres_fits c g -> (forall k, (k < length (params c))%nat -> number_kept (whole_at c k) (number_at (g_head g) (shown_at c k))) ->
  numbers_reload json_real shown_number shown_whole graph_misfit c g (fun k => form_of (whole_at c k) (number_at (g_head g) (shown_at c k))) (fun k => number_at (g_head g) (shown_at c k)).
Proof.
  intros c g XF H k K. pose proof (H k K) as N. pose proof (fits_quiet c g k K XF N) as MF. destruct (kept_back _ _ N) as (j & E & R). unfold form_of. rewrite E. cbn [snd oret]. split; [reflexivity|]. split; [exact R|]. split; [|exact MF].
  destruct N as (neg & x & M & (L & _) & _). exact L.
Qed.
Theorem C142_reload : forall expr_of load_expr json_name other_attr e e0 g txt retext, let c := e_cls e in
  gdb_shown c g -> colour c = true -> names_fit g -> (forall i, (i < length (g_styles g))%nat -> color_at g i <> 0) -> (is_seq c = true -> named_kind (nth 5 (g_head g) 0) = false) ->
  e_data e = Buf true (gdb_bytes g) -> e_cls e0 = c -> xres_fits c g ->
  (forall k, (k < length (params c))%nat -> number_kept (whole_at c k) (number_at (g_head g) (shown_at c k))) ->
  texts_reload expr_of load_expr json_name c g txt retext ->
  exists D, gdb_dict shown_number shown_whole expr_of json_name e = oret D /\
    gdb_load_dict json_real graph_misfit load_expr other_attr D e0 = oret (with_data e0 (Buf true (gdb_bytes (gdb_again c (fun k => number_at (g_head g) (shown_at c k)) retext g)))).
Proof.
  intros expr_of load_expr json_name other_attr e e0 g txt retext c SH C NF CO NK ED E0 XF N T. apply (C110_reload json_real shown_number shown_whole graph_misfit expr_of load_expr json_name other_attr e e0 g (fun k => form_of (whole_at c k) (number_at (g_head g) (shown_at c k))) (fun k => number_at (g_head g) (shown_at c k)) txt retext SH C NF CO NK ED E0); [|exact T].
  now apply C142_numbers.
Qed.
(** The packaged defaults meet what C113 asks of the readings of numbers. *)
Theorem C142_defaults : defaults_read json_real graph_misfit expr0.
Proof.
  split; [|split; [|reflexivity]].
  - repeat (constructor; [vm_compute; reflexivity|]). constructor.
  - unfold default_settings. cbn [map fst snd]. repeat (constructor; [unfold default_numbers; repeat (constructor; [cbn [fst snd]; intros H; first [discriminate H|vm_compute; reflexivity]|]); constructor|]). constructor.
Qed.
Theorem C142_default : forall e, In (e_cls e) [KFunc; KParam; KPolar] ->
  gdb_load_dict json_real graph_misfit expr0 none0 (default_dict (e_cls e)) e = oret (with_data e (Buf true (gdb_bytes (default_gdb (e_cls e))))).
Proof. intros e H. apply (C113_default json_real graph_misfit expr0 none0 C142_defaults (fun _ _ _ => eq_refl) e H). Qed.
(** A GDB with Xscl = 0.3 is changed by going through its dictionary. *)
Definition scaled : gdb := let g := default_gdb KFunc in Gdb (firstn 25 (g_head g) ++ tenths3 ++ skipn 34 (g_head g)) (g_styles g) (g_eqns g) (g_tail g).
Definition no_text (q : geq) : out str := oret [].
Theorem C142_reload_refuted : exists D e', gdb_shown KFunc scaled /\ number_at (g_head scaled) 2 = tenths3 /\
  gdb_dict shown_number shown_whole no_text (fun n => n) (gdb_entry KFunc (gdb_bytes scaled)) = oret D /\
  gdb_load_dict json_real graph_misfit expr0 none0 D (gdb_entry KFunc (gdb_bytes scaled)) = oret e' /\ calc_data e' <> gdb_bytes scaled /\
  firstn 9 (skipn 25 (calc_data e')) = [0; 127; 41; 153; 153; 153; 153; 153; 153].
Proof.
  do 2 eexists. split; [|split; [vm_compute; reflexivity|]].
  - split; [exists 1%nat, 10%nat, 1%nat; split; [reflexivity|]; do 3 (split; [vm_compute; reflexivity|]); split; [repeat constructor|vm_compute; auto]|]. split; [reflexivity|]. do 3 (split; [vm_compute; intuition discriminate|]).
    cbn [colour]. eexists. split; [reflexivity|]. do 5 eexists. split; [reflexivity|]. unfold named_color, is_byte. lia.
  - split; [vm_compute; reflexivity|]. split; [vm_compute; reflexivity|]. split; [vm_compute; discriminate|vm_compute; reflexivity].
Qed.
(** 1.25 and 0.13089969389957 are kept as they are; 10 as an integer. *)
Example C142_example : number_kept false [0; 128; 18; 80; 0; 0; 0; 0; 0] /\ number_kept false [0; 127; 19; 8; 153; 105; 56; 153; 87] /\ number_kept true [0; 129; 16; 0; 0; 0; 0; 0; 0] /\
  defaults_read json_real graph_misfit expr0 /\ shown_number [0; 127; 19; 8; 153; 105; 56; 153; 87] = oret (JStr (s2l "0.13089969389957")) /\
  exists e', gdb_load_dict json_real graph_misfit expr0 none0 (default_dict KPolar) (gdb_entry KPolar []) = oret e' /\ firstn 9 (skipn 79 (calc_data e')) = [0; 127; 19; 8; 153; 105; 56; 153; 87].
Proof.
  split; [|split; [|split; [|split; [exact C142_defaults|split; [vm_compute; reflexivity|]]]]].
  - exists false, 128, 12500000000000. split; [apply (stored_payload 0 false 128 12500000000000); lia|]. right. split; [unfold is_byte; lia|]. split; [lia|]. right. intros m e E. vm_compute in E. injection E as <- <-. vm_compute. discriminate.
  - exists false, 127, 13089969389957. split; [apply (stored_payload 0 false 127 13089969389957); lia|]. right. split; [unfold is_byte; lia|]. split; [lia|]. left. eexists. vm_compute. reflexivity.
  - exists false, 129, 10000000000000. split; [apply (stored_payload 0 false 129 10000000000000); lia|]. right. split; [unfold is_byte; lia|]. split; [lia|]. split; [lia|]. exists 10. vm_compute. reflexivity.
  - eexists. split; [vm_compute; reflexivity|vm_compute; reflexivity].
Qed.
Lemma kept_float neg x M b : b = b_data (stored 0 neg x M) -> is_byte x -> 10 ^ 13 <= M < 10 ^ 14 ->
  match real_float (Buf true b) with Ok (FNum _ m e) => dec_side M (x - 141) e <=? bin_side m e (x - 141) | _ => false end = true -> number_kept false b.
Proof.
  intros -> X HM H. exists neg, x, M. split; [apply (stored_payload 0); lia|]. right. split; [exact X|]. split; [exact HM|]. right. intros m e E. rewrite E in H. unfold dec_le_bin. lia.
Qed.
Example C142_example_gdb : xres_fits KFunc (default_gdb KFunc) /\
  forall k, (k < length (params KFunc))%nat -> number_kept (whole_at KFunc k) (number_at (g_head (default_gdb KFunc)) (shown_at KFunc k)).
Proof.
  split; [intros _; exists 1; split; [lia|vm_compute; reflexivity]|]. intros k K. cbn in K.
  destruct k as [|[|[|[|[|[|[|k]]]]]]]; [| | | | | | |lia]; [..|exists false, 128, 10000000000000; split; [apply (stored_payload 0 false 128 10000000000000); lia|]; right; split; [unfold is_byte; lia|]; split; [lia|]; split; [lia|]; exists 1; reflexivity].
  - apply (kept_float true 129 10000000000000); [vm_compute; reflexivity|unfold is_byte; lia|lia|vm_compute; reflexivity].
  - apply (kept_float false 129 10000000000000); [vm_compute; reflexivity|unfold is_byte; lia|lia|vm_compute; reflexivity].
  - apply (kept_float false 128 10000000000000); [vm_compute; reflexivity|unfold is_byte; lia|lia|vm_compute; reflexivity].
  - apply (kept_float true 129 10000000000000); [vm_compute; reflexivity|unfold is_byte; lia|lia|vm_compute; reflexivity].
  - apply (kept_float false 129 10000000000000); [vm_compute; reflexivity|unfold is_byte; lia|lia|vm_compute; reflexivity].
  - apply (kept_float false 128 10000000000000); [vm_compute; reflexivity|unfold is_byte; lia|lia|vm_compute; reflexivity].
Qed.
Print Assumptions C142_reload.
Print Assumptions C142_default.
Print Assumptions C142_reload_refuted.
