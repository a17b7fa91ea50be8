(** Property theorems C136-C141: binary floating point numbers. *)
From Verif Require Import PyBase M_Data M_Numeric M_Class M_Var M_Real M_Complex M_Float L_Base S_Real L_Real L_Frac S_Float L_Float.
From Verif Require Import S_Data L_Data S_Var L_Var S_Complex L_Complex P_Real P_Complex P_CText.

(** * C136: loading floats and integers into decimal numbers *)
Lemma decimal_float fp c f b : In c [KReal; KUndefReal] -> load_float fp c f b = real_load (float_text f) b.
Proof. intros [<-|[<-|[]]]; reflexivity. Qed.
(** The digits are those of the exact binary value, cut after the fourteenth. *)
Theorem C136_cut : forall fp c neg m e d, In c [KReal; KUndefReal] -> 0 < m -> length d = 9%nat -> wf_bytes d ->
  exists M x, cut14 m e M (x - 141) /\
    (is_byte x -> exists d', load_float fp c (FNum neg m e) (Buf true d) = (Buf true d', oret tt) /\ payload (nth 0 d 0 mod 128) neg x M d') /\
    (~ is_byte x -> exists b, load_float fp c (FNum neg m e) (Buf true d) = (b, oerr OverflowError)).
Proof.
  intros fp c neg m e d C M L W. rewrite (decimal_float fp c _ _ C). destruct (slot9 d L W) as (c0 & c1 & r & -> & Lr & B0).
  destruct (float_load_spec neg m e c0 c1 r ltac:(lia) Lr B0) as [_ H]. destruct H as (M' & x & T & E); [lia|]. exists M', x. split; [exact T|]. rewrite E. destruct T as [T _]. split; intros X.
  - replace (is_byteb x) with true by (unfold is_byteb, is_byte in *; lia). exists (b_data (stored c0 neg x M')). split; [reflexivity|]. apply stored_payload. lia.
  - replace (is_byteb x) with false by (unfold is_byteb, is_byte in *; lia). eexists. reflexivity.
Qed.
(** There is only one such number. *)
Theorem C136_unique : forall m e M X M' X', 0 <= m -> cut14 m e M X -> cut14 m e M' X' -> M = M' /\ X = X'.
Proof. exact cut14_unique. Qed.
Theorem C136_zero : forall fp c neg e d, In c [KReal; KUndefReal] -> length d = 9%nat -> wf_bytes d ->
  exists d', load_float fp c (FNum neg 0 e) (Buf true d) = (Buf true d', oret tt) /\ payload (nth 0 d 0 mod 128) neg 128 0 d'.
Proof.
  intros fp c neg e d C L W. rewrite (decimal_float fp c _ _ C). destruct (slot9 d L W) as (c0 & c1 & r & -> & Lr & B0).
  destruct (float_load_spec neg 0 e c0 c1 r ltac:(lia) Lr B0) as [H _]. rewrite H by reflexivity. exists (b_data (stored c0 neg 128 0)). split; [reflexivity|]. apply stored_payload. lia.
Qed.
(** Infinities and NaN are refused and change nothing; radicals and multiples of pi
    refuse every float. *)
Theorem C136_special : forall fp c f b, In c [KReal; KUndefReal] -> f = FNan \/ (exists neg, f = FInf neg) -> load_float fp c f b = (b, oerr ValueError).
Proof. intros fp c f b C [->|[[] ->]]; rewrite (decimal_float fp c _ _ C); reflexivity. Qed.
Theorem C136_refused : forall fp c f b, In c [KRealRadical; KRealPi; KRealPiFraction] -> load_float fp c f b = (b, oerr NotImplementedError).
Proof. intros fp c f b [<-|[<-|[<-|[]]]]; reflexivity. Qed.
(** With the power as a variable, so that it is never computed. *)
Lemma ndigits_short k z : 0 < z -> z < 10 ^ k -> ndigits z <= k.
Proof.
  intros P H. destruct (ndigits_spec z P) as [[X _] N]. destruct (Z.le_gt_cases (ndigits z) k) as [|G]; [assumption|exfalso].
  assert (10 ^ k <= 10 ^ (ndigits z - 1)) by (apply Z.pow_le_mono_r; lia). lia.
Qed.
Lemma ndigits_long k z : 0 <= k -> 10 ^ k <= z -> k < ndigits z.
Proof.
  intros K H. pose proof (pow10_pos k K). destruct (ndigits_spec z ltac:(lia)) as [[_ X] N].
  apply (Z.pow_lt_mono_r_iff 10); lia.
Qed.
Lemma int_load n c0 c1 r : n <> 0 -> ndigits (Z.abs n) <= 4300 -> length r = 7%nat -> is_byte c0 -> exists M x, truncated14 (Z.abs n) 0 M (x - 141) /\
  load_int n (Buf true (c0 :: c1 :: r)) = if is_byteb x then (stored c0 (n <? 0) x M, oret tt) else (Buf true (c0 :: c1 :: mant M), oerr OverflowError).
Proof.
  intros N B L B0. unfold load_int. replace (4300 <? ndigits (Z.abs n)) with false by lia.
  destruct (dec_str_literal (Dec (n <? 0) (Z.abs n) 0)) as (l & W & T & Sq & LN & LC & LS); [cbn; lia|]. cbn [d_neg d_coef d_exp] in *. rewrite T.
  destruct (real_load_spec l (lit_text l) c0 c1 r W Sq L B0) as [_ R]. rewrite LC, LN, LS in R. apply R. lia.
Qed.
(** Integers: the same, exact below ten to the fourteenth. *)
Theorem C136_int : forall n d, n <> 0 -> Z.abs n < 10 ^ 4300 -> length d = 9%nat -> wf_bytes d ->
  exists M x, truncated14 (Z.abs n) 0 M (x - 141) /\ (Z.abs n < 10 ^ 14 -> sci_eq M (x - 141) (Z.abs n) 0 /\ is_byte x) /\
    (is_byte x -> exists d', load_int n (Buf true d) = (Buf true d', oret tt) /\ payload (nth 0 d 0 mod 128) (n <? 0) x M d') /\
    (~ is_byte x -> exists b, load_int n (Buf true d) = (b, oerr OverflowError)).
Proof.
  intros n d N B L W. apply (ndigits_short 4300 _ (proj2 (Z.abs_pos n) N)) in B. destruct (slot9 d L W) as (c0 & c1 & r & -> & Lr & B0). destruct (int_load n c0 c1 r N B Lr B0) as (M & x & T & E). exists M, x. split; [exact T|]. split.
  - intros S. clear B E. pose proof (truncated14_exact _ _ _ _ (Z.abs n) 0 T ltac:(lia) ltac:(lia) S) as EQ. split; [exact EQ|]. destruct T as [T _]. unfold is_byte, sci_eq in *.
    destruct (Z.lt_ge_cases x 128) as [X|X].
    + exfalso. replace (Z.min (x - 141) 0) with (x - 141) in EQ by lia. rewrite Z.sub_diag in EQ. change (10 ^ 0) with 1 in EQ. assert (10 ^ 14 <= 10 ^ (0 - (x - 141))) by (apply Z.pow_le_mono_r; lia). nia.
    + split; [lia|]. destruct (Z.lt_ge_cases x 142) as [|Y]; [lia|exfalso]. replace (Z.min (x - 141) 0) with 0 in EQ by lia. rewrite Z.sub_0_r in EQ. change (10 ^ (0 - 0)) with 1 in EQ. assert (10 ^ 1 <= 10 ^ (x - 141)) by (apply Z.pow_le_mono_r; lia). nia.
  - rewrite E. destruct T as [T _]. split; intros X.
    + replace (is_byteb x) with true by (unfold is_byteb, is_byte in *; lia). exists (b_data (stored c0 (n <? 0) x M)). split; [reflexivity|]. apply stored_payload. lia.
    + replace (is_byteb x) with false by (unfold is_byteb, is_byte in *; lia). eexists. reflexivity.
Qed.
Theorem C136_int_zero : forall d, length d = 9%nat -> wf_bytes d -> exists d', load_int 0 (Buf true d) = (Buf true d', oret tt) /\ payload (nth 0 d 0 mod 128) false 128 0 d'.
Proof.
  intros d L W. change (load_int 0 (Buf true d)) with (load_float (fun _ => Err ValueError) KReal (FNum false 0 0) (Buf true d)). apply C136_zero; auto. now left.
Qed.
(** Longer integers are refused and change nothing. *)
Theorem C136_int_long : forall n b, 10 ^ 4300 <= Z.abs n -> load_int n b = (b, oerr ValueError).
Proof.
  intros n b N. apply (ndigits_long 4300 _ ltac:(discriminate)) in N. apply Z.ltb_lt in N. unfold load_int. now rewrite N.
Qed.
Print Assumptions C136_cut.
Print Assumptions C136_int.
Definition slot1 : bytes := [0; 0; 0; 0; 0; 0; 0; 0; 0].
(** [TIReal(-(10 ** 4300))]. *)
Example C136_int_long_example : load_int (- 10 ^ 4300) (Buf true slot1) = (Buf true slot1, oerr ValueError).
Proof. apply C136_int_long. rewrite Z.abs_opp, Z.abs_eq; [apply Z.le_refl|apply Z.pow_nonneg; discriminate]. Qed.
(** [TIReal(-2.75)], [TIReal(1e-300)], [TIReal(123456789012345678)]. *)
Example C136_example : load_float (fun _ => Err ValueError) KReal (FNum true 11 (-2)) (Buf true slot1) = (Buf true [128; 128; 39; 80; 0; 0; 0; 0; 0], oret tt) /\
  snd (load_float (fun _ => Err ValueError) KReal (FNum false 6032057205060441 (-1049)) (Buf true slot1)) = oerr OverflowError /\
  load_int 123456789012345678 (Buf true slot1) = (Buf true [0; 145; 18; 52; 86; 120; 144; 18; 52], oret tt) /\
  cut14 11 (-2) 27500000000000 (128 - 141).
Proof.
  split; [vm_compute; reflexivity|]. split; [vm_compute; reflexivity|]. split; [vm_compute; reflexivity|].
  split; [lia|]. split; vm_compute; [discriminate|reflexivity].
Qed.

(** * C137: to a float and back *)
Lemma real_float_stored low neg x M d : 0 <= low < 128 -> payload low neg x M d -> is_byte x -> 0 < M < 10 ^ 14 ->
  exists m e, real_float (Buf true d) = Ok (FNum neg m e) /\ 2 ^ 52 <= m <= 2 ^ 53 /\
    2 * Z.abs (bin_side m e (x - 141) - dec_side M (x - 141) e) <= bin_side 1 e (x - 141).
Proof.
  intros LO P X HM. apply payload_stored in P; [|lia|lia]. assert (E : Buf true d = stored low neg x M) by (rewrite P; reflexivity). rewrite E. unfold real_float.
  rewrite real_decimal_stored by (auto; unfold is_byte in *; lia). cbn [rbind]. replace (neg && negb (M =? 0)) with neg by (destruct neg; cbn; lia).
  destruct (float_of_dec_normal neg M (x - 141)) as (m & e & F & R); [lia|unfold is_byte in X; lia|]. exists m, e. rewrite F. split; [reflexivity|exact R].
Qed.
(** [float()] gives the nearest float of 53 bits. *)
Theorem C137_nearest : forall low neg x M d, 0 <= low < 128 -> payload low neg x M d -> is_byte x -> 10 ^ 13 <= M < 10 ^ 14 ->
  exists m e, real_float (Buf true d) = Ok (FNum neg m e) /\ nearest53 m e M (x - 141).
Proof.
  intros low neg x M d LO P X HM. destruct (real_float_stored low neg x M d LO P X ltac:(lia)) as (m & e & F & B & H). exists m, e. split; [exact F|]. split; [exact B|]. intros m'.
  destruct (Z.eq_dec m' m) as [->|N]; [lia|]. assert (E : bin_side m' e (x - 141) = bin_side m e (x - 141) + (m' - m) * bin_side 1 e (x - 141)) by (unfold bin_side; ring). rewrite E. clear E B F.
  assert (PU : 0 < bin_side 1 e (x - 141)) by (unfold bin_side; rewrite Z.mul_1_l; apply Z.mul_pos_pos; apply up_pos; lia). set (U := bin_side 1 e (x - 141)) in *. clearbody U.
  assert (U <= Z.abs ((m' - m) * U)) by (rewrite Z.abs_mul, (Z.abs_eq U) by lia; nia). lia.
Qed.
(** A number comes back exactly if its float is not below it (in absolute value);
    otherwise with one unit less in its last digit. *)
Theorem C137_back_iff : forall fp c low neg x M d m e d0, In c [KReal; KUndefReal] -> 0 <= low < 128 -> payload low neg x M d -> is_byte x -> 10 ^ 13 <= M < 10 ^ 14 ->
  real_float (Buf true d) = Ok (FNum neg m e) -> length d0 = 9%nat -> wf_bytes d0 ->
  ((exists d', load_float fp c (FNum neg m e) (Buf true d0) = (Buf true d', oret tt) /\ payload (nth 0 d0 0 mod 128) neg x M d') <-> dec_le_bin M (x - 141) m e).
Proof.
  intros fp c low neg x M d m e d0 C LO P X HM F L0 W0. destruct (real_float_stored low neg x M d LO P X ltac:(lia)) as (m' & e' & F' & B & H). rewrite F in F'. injection F' as <- <-.
  pose proof (float_close m e M (x - 141) ltac:(lia) ltac:(lia) H) as CL.
  destruct (C136_cut fp c neg m e d0 C ltac:(lia) L0 W0) as (M' & x' & T & R1 & R2). split.
  - intros (d' & E & Q). destruct (Z.le_gt_cases (dec_side M (x - 141) e) (bin_side m e (x - 141))) as [|G]; [assumption|exfalso].
    assert (NL : ~ dec_le_bin M (x - 141) m e) by (unfold dec_le_bin; lia). pose proof (cut_below m e M (x - 141) HM CL NL) as T'. replace (x - 141 + 141) with x in T' by lia.
    destruct (cut14_unique m e _ _ _ _ ltac:(lia) T T') as [E1 E2]. destruct (is_byteb x') eqn:BX.
    + destruct R1 as (d'' & E' & Q'); [unfold is_byteb, is_byte in *; lia|]. rewrite E in E'. injection E' as <-.
      assert (BM : 0 <= M' < 10 ^ 14) by (destruct T as [T _]; lia). pose proof (Z.mod_pos_bound (nth 0 d0 0) 128 ltac:(lia)) as LO'.
      apply payload_stored in Q, Q'; auto; [|lia]. assert (S : stored (nth 0 d0 0 mod 128) neg x M = stored (nth 0 d0 0 mod 128) neg x' M') by (unfold stored in *; cbn [b_data] in *; congruence).
      apply stored_inj in S as (_ & S & _); [|lia|exact BM]. unfold less14 in E1. destruct (M =? 10 ^ 13) eqn:M0; cbn [fst snd] in E1; lia.
    + destruct R2 as (b & E'); [unfold is_byteb, is_byte in *; lia|]. rewrite E in E'. discriminate E'.
  - intros LE. destruct (cut14_unique m e _ _ _ _ ltac:(lia) T (cut_above m e M (x - 141) HM CL LE)) as [-> E2]. assert (x' = x) as -> by lia. exact (R1 X).
Qed.
Theorem C137_below : forall fp c low neg x M d m e d0, In c [KReal; KUndefReal] -> 0 <= low < 128 -> payload low neg x M d -> is_byte x -> 10 ^ 13 <= M < 10 ^ 14 ->
  real_float (Buf true d) = Ok (FNum neg m e) -> length d0 = 9%nat -> wf_bytes d0 -> ~ dec_le_bin M (x - 141) m e ->
  let '(x', M') := less14 x M in
  if x' <? 0 then exists b, load_float fp c (FNum neg m e) (Buf true d0) = (b, oerr OverflowError)
  else exists d', load_float fp c (FNum neg m e) (Buf true d0) = (Buf true d', oret tt) /\ payload (nth 0 d0 0 mod 128) neg x' M' d'.
Proof.
  intros fp c low neg x M d m e d0 C LO P X HM F L0 W0 NL. destruct (real_float_stored low neg x M d LO P X ltac:(lia)) as (m' & e' & F' & B & H). rewrite F in F'. injection F' as <- <-.
  pose proof (float_close m e M (x - 141) ltac:(lia) ltac:(lia) H) as CL. destruct (C136_cut fp c neg m e d0 C ltac:(lia) L0 W0) as (M' & x' & T & R1 & R2).
  pose proof (cut_below m e M (x - 141) HM CL NL) as T'. replace (x - 141 + 141) with x in T' by lia. destruct (cut14_unique m e _ _ _ _ ltac:(lia) T T') as [E1 E2].
  assert (BX : x' <= 255) by (unfold less14 in E2; destruct (M =? 10 ^ 13); cbn [fst] in E2; unfold is_byte in X; lia).
  destruct (less14 x M) as [y N]. cbn [fst snd] in E1, E2. assert (x' = y) as -> by lia. subst N. destruct (y <? 0) eqn:Y.
  - apply R2. unfold is_byte. lia.
  - apply R1. unfold is_byte. lia.
Qed.
(** In particular it comes back if its float is exact, as it is for whole numbers below
    ten to the fourteenth. *)
Theorem C137_exact : forall low neg x M d m e m', 0 <= low < 128 -> payload low neg x M d -> is_byte x -> 10 ^ 13 <= M < 10 ^ 14 ->
  real_float (Buf true d) = Ok (FNum neg m e) -> bin_eq_dec m' e M (x - 141) -> m' = m /\ dec_le_bin M (x - 141) m e.
Proof.
  intros low neg x M d m e m' LO P X HM F Q. destruct (real_float_stored low neg x M d LO P X ltac:(lia)) as (m'' & e'' & F' & B & H). rewrite F in F'. injection F' as <- <-.
  unfold bin_eq_dec, dec_le_bin in *. rewrite <- Q in *. assert (E : bin_side m' e (x - 141) = m' * bin_side 1 e (x - 141)) by (unfold bin_side; ring). assert (E' : bin_side m e (x - 141) = m * bin_side 1 e (x - 141)) by (unfold bin_side; ring).
  assert (PU : 0 < bin_side 1 e (x - 141)) by (unfold bin_side; rewrite Z.mul_1_l; apply Z.mul_pos_pos; apply up_pos; lia). rewrite E, E' in *. set (U := bin_side 1 e (x - 141)) in *. clearbody U. clear - H PU.
  assert (m' = m); [|subst; lia]. rewrite <- Z.mul_sub_distr_r, Z.abs_mul, (Z.abs_eq U) in H by lia. nia.
Qed.
Lemma float_fractional m e M x : x <= 141 -> 0 < M < 10 ^ 14 -> 2 ^ 52 <= m -> 2 * Z.abs (bin_side m e (x - 141) - dec_side M (x - 141) e) <= bin_side 1 e (x - 141) -> e < 0.
Proof.
  intros X HM B H. destruct (Z.lt_ge_cases e 0) as [|G]; [assumption|exfalso]. pose proof (float_close m e M (x - 141) HM B H) as CL. clear H. unfold bin_side, dec_side, up in CL.
  replace (Z.max (x - 141) 0) with 0 in CL by lia. replace (Z.max (- e) 0) with 0 in CL by lia. change (10 ^ 0) with 1 in CL. change (2 ^ 0) with 1 in CL.
  set (p := 2 ^ Z.max e 0) in *. set (t := 10 ^ Z.max (- (x - 141)) 0) in *. assert (0 < p) by (apply Z.pow_pos_nonneg; lia). assert (0 < t) by (apply Z.pow_pos_nonneg; lia). clearbody p t.
  assert (2 ^ 52 * 1 <= m * (p * t)) by (apply Z.mul_le_mono_nonneg; nia). rewrite <- (Z.mul_assoc m p t) in CL. lia.
Qed.
Theorem C137_whole : forall low neg x M d m e, 0 <= low < 128 -> payload low neg x M d -> is_byte x -> 10 ^ 13 <= M < 10 ^ 14 ->
  real_float (Buf true d) = Ok (FNum neg m e) -> x <= 141 -> (10 ^ (141 - x) | M) -> dec_le_bin M (x - 141) m e.
Proof.
  intros low neg x M d m e LO P X HM F X1 [i I]. pose proof (real_float_stored low neg x M d LO P X ltac:(lia)) as (m'' & e'' & F' & B & H). rewrite F in F'. injection F' as <- <-.
  pose proof (float_fractional m e M x X1 ltac:(lia) ltac:(lia) H) as E. apply (C137_exact low neg x M d m e (i * 2 ^ (- e)) LO P X HM F). unfold bin_eq_dec, bin_side, dec_side, up.
  replace (Z.max (x - 141) 0) with 0 by lia. replace (Z.max e 0) with 0 by lia. replace (Z.max (- e) 0) with (- e) by lia. replace (Z.max (- (x - 141)) 0) with (141 - x) by lia. rewrite I. change (10 ^ 0) with 1. change (2 ^ 0) with 1. ring.
Qed.
(** Zero, of whatever sign and exponent, becomes plain zero. *)
Theorem C137_zero : forall fp c low neg x d d0, In c [KReal; KUndefReal] -> 0 <= low < 128 -> payload low neg x 0 d -> is_byte x -> length d0 = 9%nat -> wf_bytes d0 ->
  exists f d', real_float (Buf true d) = Ok f /\ load_float fp c f (Buf true d0) = (Buf true d', oret tt) /\ payload (nth 0 d0 0 mod 128) false 128 0 d'.
Proof.
  intros fp c low neg x d d0 C LO P X L0 W0. apply payload_stored in P; [|lia|lia]. assert (E : Buf true d = stored low neg x 0) by (rewrite P; reflexivity). rewrite E.
  destruct (C136_zero fp c false 0 d0 C L0 W0) as (d' & Q & PQ). exists (FNum false 0 0), d'. split; [|now split]. unfold real_float.
  rewrite real_decimal_stored by (auto; unfold is_byte in *; lia). cbn [rbind]. change (negb (0 =? 0)) with false. rewrite andb_false_r. rewrite float_of_dec_up. reflexivity.
Qed.
Definition tenths3 : bytes := [0; 127; 48; 0; 0; 0; 0; 0; 0].
(** 0.3 becomes 0.29999999999999. *)
Theorem C137_back_refuted : exists d m e d', payload 0 false 127 30000000000000 d /\ real_float (Buf true d) = Ok (FNum false m e) /\
  load_float (fun _ => Err ValueError) KReal (FNum false m e) (Buf true slot1) = (Buf true d', oret tt) /\ payload 0 false 127 29999999999999 d'.
Proof.
  exists tenths3, 5404319552844595, (-54), [0; 127; 41; 153; 153; 153; 153; 153; 153]. split; [apply (stored_payload 0 false 127 30000000000000); lia|].
  split; [vm_compute; reflexivity|]. split; [vm_compute; reflexivity|]. apply (stored_payload 0 false 127 29999999999999). lia.
Qed.
Print Assumptions C137_back_iff.
Print Assumptions C137_back_refuted.
(** 0.1 is kept: its float is above it. *)
Example C137_example : exists m e, payload 0 false 127 (10 ^ 13) [0; 127; 16; 0; 0; 0; 0; 0; 0] /\ real_float (Buf true [0; 127; 16; 0; 0; 0; 0; 0; 0]) = Ok (FNum false m e) /\
  dec_le_bin (10 ^ 13) (127 - 141) m e /\ load_float (fun _ => Err ValueError) KReal (FNum false m e) (Buf true slot1) = (Buf true [0; 127; 16; 0; 0; 0; 0; 0; 0], oret tt) /\
  ~ dec_le_bin 30000000000000 (127 - 141) 5404319552844595 (-54) /\ (10 ^ (141 - 129) | 12 * 10 ^ 12).
Proof.
  exists 7205759403792794, (-56). split; [apply (stored_payload 0 false 127 (10 ^ 13)); lia|]. split; [vm_compute; reflexivity|]. split; [vm_compute; discriminate|]. split; [vm_compute; reflexivity|].
  split; [intros H; vm_compute in H; now apply H|now exists 12].
Qed.

(** * C138: floats and fractions *)
(** [Fraction(str(d))] is the value of the decimal [d] in lowest terms. *)
Definition reads_decimal (fp : str -> result (Z * Z)) (d : dec) : Prop := exists N D,
  fp (dec_str d) = Ok (N, D) /\ 0 < D /\ Z.gcd N D = 1 /\ N * up 10 (- d_exp d) = (if d_neg d then - d_coef d else d_coef d) * up 10 (d_exp d) * D.
Lemma near14_exact c e M X n d : 0 < d -> 0 < n -> c * up 10 e * d = n * up 10 (- e) -> sci_eq M X c e -> 10 ^ 13 <= M < 10 ^ 14 -> near14 n d M X.
Proof.
  intros D N E S HM. assert (E' : n * up 10 (- e) = c * up 10 e * d) by lia.
  assert (Q : M * up 10 X * d = n * up 10 (- X)) by now apply (sci_eq_frac M X c e n d D E').
  split; [exact HM|]. rewrite Q, Z.sub_diag. pose proof (up_pos 10 X ltac:(lia)). split; [cbn; nia|lia].
Qed.
Lemma near14_cong n d n' d' M X : 0 < d -> 0 < d' -> n * d' = n' * d -> near14 n d M X -> near14 n' d' M X.
Proof.
  intros D D' E (A & B & C). assert (R : forall u v, (u * d - n * v) * d' = (u * d' - n' * v) * d) by (intros u v; replace ((u * d - n * v) * d') with (u * d * d' - n * d' * v) by ring; rewrite E; ring).
  split; [exact A|]. pose proof (up_pos 10 X ltac:(lia)) as P. specialize (R (M * up 10 X) (up 10 (- X))). set (u := M * up 10 X) in *. set (v := up 10 (- X)) in *. set (p := up 10 X) in *. clearbody u v p. split.
  - apply (Z.mul_le_mono_pos_r _ _ d D). rewrite <- (Z.abs_eq d) at 1 by lia. rewrite <- Z.mul_assoc, <- Z.abs_mul, <- R, Z.abs_mul, (Z.abs_eq d') by lia.
    rewrite Z.mul_assoc. replace (p * d' * d) with (p * d * d') by ring. now apply Z.mul_le_mono_pos_r.
  - intros M0 LT. assert (LT' : n * v < u * d) by nia. specialize (C M0 LT'). apply (Z.mul_le_mono_pos_r _ _ d D). rewrite <- Z.mul_assoc, <- R, Z.mul_assoc. replace (p * d' * d) with (p * d * d') by ring. now apply Z.mul_le_mono_pos_r.
Qed.
Lemma load_fraction_near n d c0 c1 r : n <> 0 -> 0 < d -> length r = 7%nat -> is_byte c0 -> exists M x, near14 (Z.abs n) d M (x - 141) /\
  load_fraction n d (Buf true (c0 :: c1 :: r)) = if is_byteb x then (stored c0 (n <? 0) x M, oret tt) else (Buf true (c0 :: c1 :: mant M), oerr OverflowError).
Proof.
  intros N D L B0. unfold load_fraction. destruct (dec_div_near n d N D) as (c & e & E & C & V). rewrite E.
  destruct (dec_str_literal (Dec (n <? 0) c e)) as (l & W & T & Sq & LN & LC & LS); [cbn; lia|]. cbn [d_neg d_coef d_exp] in *. rewrite T.
  destruct (real_load_spec l (lit_text l) c0 c1 r W Sq L B0) as [_ R]. rewrite LC, LN, LS in R. destruct R as (M & x & TR & R); [lia|]. exists M, x. split; [|exact R].
  destruct V as [V|V].
  - pose proof (truncated14_exact _ _ _ _ c 0 TR ltac:(lia) ltac:(lia) ltac:(lia)) as SE. destruct TR as [TM _]. apply (near14_exact c e); auto. lia.
  - assert (TR' : truncated14 c e c e).
    { split; [apply V|]. unfold sci_le, sci_lt. rewrite !Z.min_id, !Z.sub_diag. change (10 ^ 0) with 1. lia. }
    destruct (truncated14_unique _ _ _ _ _ _ TR TR') as [-> ->]. exact V.
Qed.
(** A float loaded into a fraction is rounded to the nearest number of 14 digits. *)
Theorem C138_nearest : forall fp neg m e d, reads_decimal fp (dec_of_float neg m e) -> 0 < m -> length d = 9%nat -> wf_bytes d ->
  exists M x, near14 (m * up 2 e) (up 2 (- e)) M (x - 141) /\
    (is_byte x -> exists d', load_float fp KRealFraction (FNum neg m e) (Buf true d) = (Buf true d', oret tt) /\ payload (nth 0 d 0 mod 128) neg x M d') /\
    (~ is_byte x -> exists b, load_float fp KRealFraction (FNum neg m e) (Buf true d) = (b, oerr OverflowError)).
Proof.
  intros fp neg m e d FP HM L W. destruct (slot9 d L W) as (c0 & c1 & r & -> & Lr & B0).
  destruct (dec_of_float_spec neg m e ltac:(lia)) as (A & y & DE & HA & Z0 & _ & V). rewrite DE in FP. destruct FP as (N & D & FE & PD & _ & NV). cbn [d_neg d_coef d_exp] in NV.
  destruct (dec_str_literal (Dec neg A y) HA) as (l & _ & T & Sq & _).
  assert (LD : load_float fp KRealFraction (FNum neg m e) (Buf true (c0 :: c1 :: r)) = load_fraction N D (Buf true (c0 :: c1 :: r))).
  { unfold load_float, load_decimal_text, fraction_load, float_text. rewrite DE. replace (squash (dec_str (Dec neg A y))) with (dec_str (Dec neg A y)) by (rewrite T; symmetry; exact Sq). now rewrite FE. }
  rewrite LD. clear LD. pose proof (up_pos 10 y ltac:(lia)) as P1. pose proof (up_pos 10 (- y) ltac:(lia)) as P2. pose proof (up_pos 2 (- e) ltac:(lia)) as P3.
  assert (PA : 0 < A) by lia. clear FE T Sq DE.
  assert (NN : (N <? 0) = neg /\ N <> 0 /\ Z.abs N * up 10 (- y) = A * up 10 y * D).
  { assert (PQ : 0 < A * up 10 y * D) by (apply Z.mul_pos_pos; [apply Z.mul_pos_pos|]; assumption). set (Q := A * up 10 y * D) in *. set (v := up 10 (- y)) in *. clearbody v.
    destruct neg; [replace (- A * up 10 y * D) with (- Q) in NV by (unfold Q; ring)|fold Q in NV]; clearbody Q; clear - NV P2 PQ; [assert (N < 0) by nia|assert (0 < N) by nia]; repeat split; lia. }
  destruct NN as (NG & N0 & NA). destruct (load_fraction_near N D c0 c1 r N0 PD Lr B0) as (M & x & NE & E). exists M, x. split.
  - apply (near14_cong (Z.abs N) D); auto. apply (Z.mul_cancel_r _ _ (up 10 (- y))); [lia|]. replace (Z.abs N * up 2 (- e) * up 10 (- y)) with (Z.abs N * up 10 (- y) * up 2 (- e)) by ring. rewrite NA.
    replace (m * up 2 e * D * up 10 (- y)) with (m * up 2 e * up 10 (- y) * D) by ring. rewrite V. ring.
  - rewrite E, NG. destruct NE as [NE _]. split; intros X.
    + replace (is_byteb x) with true by (unfold is_byteb, is_byte in *; lia). exists (b_data (stored c0 neg x M)). split; [reflexivity|]. apply stored_payload. lia.
    + replace (is_byteb x) with false by (unfold is_byteb, is_byte in *; lia). eexists. reflexivity.
Qed.
(** So every fraction comes back from its float. *)
Theorem C138_back : forall fp low neg x M d m e d0, 0 <= low < 128 -> payload low neg x M d -> is_byte x -> 10 ^ 13 <= M < 10 ^ 14 -> real_float (Buf true d) = Ok (FNum neg m e) ->
  reads_decimal fp (dec_of_float neg m e) -> length d0 = 9%nat -> wf_bytes d0 ->
  exists d', load_float fp KRealFraction (FNum neg m e) (Buf true d0) = (Buf true d', oret tt) /\ payload (nth 0 d0 0 mod 128) neg x M d'.
Proof.
  intros fp low neg x M d m e d0 LO P X HM F FP L0 W0. destruct (real_float_stored low neg x M d LO P X ltac:(lia)) as (m' & e' & F' & B & H). rewrite F in F'. injection F' as <- <-.
  pose proof (float_close m e M (x - 141) ltac:(lia) ltac:(lia) H) as CL. destruct (C138_nearest fp neg m e d0 FP ltac:(lia) L0 W0) as (M' & x' & N & R & _).
  destruct (near14_back m e M (x - 141) M' (x' - 141) HM CL N) as [-> E]. assert (x' = x) as -> by lia. exact (R X).
Qed.
Theorem C138_zero : forall fp neg e d, reads_decimal fp (dec_of_float neg 0 e) -> length d = 9%nat -> wf_bytes d ->
  exists d', load_float fp KRealFraction (FNum neg 0 e) (Buf true d) = (Buf true d', oret tt) /\ payload (nth 0 d 0 mod 128) false 128 0 d'.
Proof.
  intros fp neg e d FP L W. destruct (slot9 d L W) as (c0 & c1 & r & -> & Lr & B0).
  destruct (dec_of_float_spec neg 0 e ltac:(lia)) as (A & y & DE & HA & Z0 & _ & V). assert (A = 0) as -> by now apply Z0. rewrite DE in FP. destruct FP as (N & D & FE & PD & G & NV). cbn [d_neg d_coef d_exp] in NV.
  destruct (dec_str_literal (Dec neg 0 y) HA) as (l & _ & T & Sq & _). pose proof (up_pos 10 (- y) ltac:(lia)) as P2. assert (N = 0) as -> by (destruct neg; nia). 
  assert (LD : load_float fp KRealFraction (FNum neg 0 e) (Buf true (c0 :: c1 :: r)) = load_fraction 0 D (Buf true (c0 :: c1 :: r))).
  { unfold load_float, load_decimal_text, fraction_load, float_text. rewrite DE. replace (squash (dec_str (Dec neg 0 y))) with (dec_str (Dec neg 0 y)) by (rewrite T; symmetry; exact Sq). now rewrite FE. }
  rewrite LD. unfold load_fraction. change (dec_str (dec_div 0 D)) with (s2l "0"). destruct (real_load_spec (Lit [] [0] None None) (s2l "0") c0 c1 r) as [R _]; auto.
  { unfold lit_wf. cbn. repeat apply conj; auto. constructor; [unfold digit; lia|constructor]. }
  rewrite R by reflexivity. exists (b_data (stored c0 false 128 0)). split; [reflexivity|]. apply stored_payload. lia.
Qed.
Print Assumptions C138_nearest.
Print Assumptions C138_back.
(** A parser that knows the exact text of the float 0.3: the fraction 3/10 is kept where
    the decimal number is not. *)
Definition knows_tenths3 (s : str) : result (Z * Z) :=
  if leqb s (s2l "0.299999999999999988897769753748434595763683319091796875") then Ok (5404319552844595, 2 ^ 54) else Err ValueError.
Example C138_example : reads_decimal knows_tenths3 (dec_of_float false 5404319552844595 (-54)) /\
  real_float (Buf true [24; 127; 48; 0; 0; 0; 0; 0; 0]) = Ok (FNum false 5404319552844595 (-54)) /\
  load_float knows_tenths3 KRealFraction (FNum false 5404319552844595 (-54)) (Buf true (24 :: zeros 8)) = (Buf true [24; 127; 48; 0; 0; 0; 0; 0; 0], oret tt) /\
  near14 5404319552844595 (2 ^ 54) 30000000000000 (-14).
Proof.
  split; [exists 5404319552844595, (2 ^ 54); repeat split; vm_compute; reflexivity|]. split; [vm_compute; reflexivity|]. split; [vm_compute; reflexivity|].
  split; [lia|]. split; [vm_compute; discriminate|]. intros H. discriminate H.
Qed.

(** * C139: complex floats *)
(** Each part is loaded by its own kind; the result has the kinds it had. *)
Lemma parts_new : forall fp re im e t0 D cr tr xr ci ti xi da db, e_cls e = KComplex \/ e_cls e = KComplexFraction ->
  e_type e = [t0] -> is_byte t0 -> e_data e = Buf true D -> length D = 18%nat -> wf_bytes D ->
  In (cr, tr, xr) part_kinds -> In (ci, ti, xi) part_kinds -> nth 0 D 0 mod 64 = tr -> nth 9 D 0 mod 64 = ti ->
  float_new fp cr re = oret (Real cr (Buf true da)) -> length da = 9%nat -> wf_bytes da -> float_new fp ci im = oret (Real ci (Buf true db)) -> length db = 9%nat -> wf_bytes db ->
  load_complex fp re im e = oret (with_cls (with_type (with_data e (Buf true (retag tr da ++ retag ti db))) [ti]) xi).
Proof.
  intros fp re im e t0 D cr tr xr ci ti xi da db K ET B0 ED LD WD KR KI T1 T2 LA La Wa LB Lb Wb.
  destruct (part_kind_sub _ _ _ KR) as (SR & PR & _ & RR). destruct (part_kind_sub _ _ _ KI) as (SI & PI & CI & RI).
  assert (RT : real_type e = Ok cr).
  { unfold real_type, real_subtype. rewrite ED. change 0 with (Z.of_nat 0) at 1. rewrite (get_bits_at_nth 0 (Buf true D) (nth 0 D 0)); [|list_n D LD 18%nat; reflexivity]. rewrite T1. exact PR. }
  assert (IT : imag_type e = Ok ci).
  { unfold imag_type, imag_subtype_get. rewrite ED. change 9 with (Z.of_nat 9) at 1. rewrite (get_bits_at_nth 9 (Buf true D) (nth 9 D 0)); [|list_n D LD 18%nat; reflexivity]. rewrite T2. exact PI. }
  assert (ST : load_complex fp re im e = do (e, _) := set_real e (Real cr (Buf true da)) in do (e, _) := set_imag e (Real ci (Buf true db)) in oret e).
  { unfold load_complex. rewrite RT, IT. unfold olift. rewrite !obind_ret_l. rewrite LA, obind_oret, LB, obind_oret. destruct K as [-> | ->]; reflexivity. }
  rewrite ST. rewrite (set_real_ok e cr tr da D) by auto. rewrite obind_oret.
  destruct (retag_same tr da La Wa RR) as [_ Wr]. assert (LD1 : length (retag tr da ++ skipn 9 D) = 18%nat) by (rewrite app_length, retag_length, skipn_length; lia).
  rewrite (set_imag_ok _ t0 ci ti db (retag tr da ++ skipn 9 D)); auto; [|apply wf_bytes_app; split; [exact Wr|now apply wf_skipn]].
  rewrite obind_oret. rewrite firstn_app_exact by (now rewrite retag_length). now rewrite CI.
Qed.
(** In terms of loading into fresh numbers of the kinds of the parts. *)
Theorem C139_parts : forall fp re im e t0 D cr tr xr ci ti xi br bi da db, e_cls e = KComplex \/ e_cls e = KComplexFraction ->
  e_type e = [t0] -> is_byte t0 -> e_data e = Buf true D -> length D = 18%nat -> wf_bytes D ->
  In (cr, tr, xr) part_kinds -> In (ci, ti, xi) part_kinds -> nth 0 D 0 mod 64 = tr -> nth 9 D 0 mod 64 = ti ->
  real_fresh cr = oret br -> load_float fp cr re br = (Buf true da, oret tt) -> length da = 9%nat -> wf_bytes da ->
  real_fresh ci = oret bi -> load_float fp ci im bi = (Buf true db, oret tt) -> length db = 9%nat -> wf_bytes db ->
  load_complex fp re im e = oret (with_cls (with_type (with_data e (Buf true (retag tr da ++ retag ti db))) [ti]) xi).
Proof.
  intros fp re im e t0 D cr tr xr ci ti xi br bi da db K ET B0 ED LD WD KR KI T1 T2 FR LR La Wa FI LI Lb Wb.
  apply (parts_new fp re im e t0 D cr tr xr ci ti xi da db); auto; unfold float_new.
  - now rewrite FR, obind_oret, LR.
  - now rewrite FI, obind_oret, LI.
Qed.
(** The classes of radicals and multiples of pi refuse, and so does a real part of
    such a kind. *)
Theorem C139_refused : forall fp re im e, ~ In (e_cls e) [KComplex; KComplexFraction] -> load_complex fp re im e = oerr NotImplementedError.
Proof. intros fp re im e N. unfold load_complex. destruct (e_cls e); try reflexivity; exfalso; apply N; cbn; auto. Qed.
Theorem C139_part_refused : forall fp re im e D cr tr xr ci ti xi, e_cls e = KComplex \/ e_cls e = KComplexFraction -> e_data e = Buf true D -> length D = 18%nat -> wf_bytes D ->
  In (cr, tr, xr) part_kinds -> In (ci, ti, xi) part_kinds -> nth 0 D 0 mod 64 = tr -> nth 9 D 0 mod 64 = ti -> In cr [KRealRadical; KRealPi; KRealPiFraction] ->
  load_complex fp re im e = oerr NotImplementedError.
Proof.
  intros fp re im e D cr tr xr ci ti xi K ED LD WD KR KI T1 T2 N. destruct (part_kind_sub _ _ _ KR) as (_ & PR & _ & _). destruct (part_kind_sub _ _ _ KI) as (_ & PI & _ & _).
  assert (RT : real_type e = Ok cr).
  { unfold real_type, real_subtype. rewrite ED. change 0 with (Z.of_nat 0) at 1. rewrite (get_bits_at_nth 0 (Buf true D) (nth 0 D 0)); [|list_n D LD 18%nat; reflexivity]. rewrite T1. exact PR. }
  assert (IT : imag_type e = Ok ci).
  { unfold imag_type, imag_subtype_get. rewrite ED. change 9 with (Z.of_nat 9) at 1. rewrite (get_bits_at_nth 9 (Buf true D) (nth 9 D 0)); [|list_n D LD 18%nat; reflexivity]. rewrite T2. exact PI. }
  unfold load_complex. rewrite RT, IT. unfold olift. rewrite !obind_ret_l. unfold float_new. destruct N as [<-|[<-|[<-|[]]]]; destruct K as [-> | ->]; reflexivity.
Qed.
Lemma float_new_decimal fp f d : load_float fp KReal f (Buf true (zeros 9)) = (Buf true d, oret tt) -> float_new fp KReal f = oret (Real KReal (Buf true d)).
Proof. intros E. unfold float_new. change (real_fresh KReal) with (@oret buffer (Buf true (zeros 9))). rewrite obind_oret, E. reflexivity. Qed.
(** The float in the range of the numbers, and the bytes it is cut to. *)
Definition cut_bytes (low : Z) (f : flt) (d : bytes) : Prop :=
  match f with
  | FNum neg m e => (m = 0 /\ payload low neg 128 0 d) \/ (0 < m /\ exists M x, is_byte x /\ cut14 m e M (x - 141) /\ payload low neg x M d)
  | _ => False
  end.
Lemma zeros9_wf : wf_bytes (zeros 9). Proof. unfold zeros. repeat constructor; lia. Qed.
Lemma payload_fields low neg x M d : 0 <= low < 128 -> is_byte x -> 0 <= M < 10 ^ 14 -> payload low neg x M d -> length d = 9%nat /\ wf_bytes d.
Proof. intros L X HM P. apply payload_stored in P; auto. rewrite P. apply stored_fields; auto. unfold is_byte. lia. Qed.
Lemma float_new_cut fp f d0 : cut_bytes 0 f d0 -> exists d, float_new fp KReal f = oret (Real KReal (Buf true d)) /\ length d = 9%nat /\ wf_bytes d /\ cut_bytes 12 f (retag 12 d).
Proof.
  destruct f as [neg m e| |]; try now intros [].
  assert (RT : forall x M d, is_byte x -> 0 <= M < 10 ^ 14 -> payload 0 neg x M d -> payload 12 neg x M (retag 12 d)).
  { intros x M d X HM P. apply payload_stored in P; [|lia|lia]. rewrite P, retag_stored. apply (stored_payload 12). lia. }
  intros [[-> _]|(HM & M & x & X & T & _)].
  - destruct (C136_zero fp KReal neg e (zeros 9) ltac:(now left) eq_refl zeros9_wf) as (d & E & P). exists d. split; [now apply float_new_decimal|]. change (nth 0 (zeros 9) 0 mod 128) with 0 in P.
    destruct (payload_fields 0 neg 128 0 d ltac:(lia) ltac:(unfold is_byte; lia) ltac:(lia) P) as [L W]. split; [exact L|]. split; [exact W|]. left. split; [reflexivity|]. apply RT; [unfold is_byte; lia|lia|exact P].
  - destruct (C136_cut fp KReal neg m e (zeros 9) ltac:(now left) HM eq_refl zeros9_wf) as (M' & x' & T' & R & _). destruct (cut14_unique m e _ _ _ _ ltac:(lia) T' T) as [-> EX]. assert (x' = x) as -> by lia.
    destruct (R X) as (d & E & P). exists d. split; [now apply float_new_decimal|]. change (nth 0 (zeros 9) 0 mod 128) with 0 in P. assert (BM : 0 <= M < 10 ^ 14) by (destruct T as [T _]; lia).
    destruct (payload_fields 0 neg x M d ltac:(lia) X BM P) as [L W]. split; [exact L|]. split; [exact W|]. right. split; [exact HM|]. exists M, x. split; [exact X|]. split; [exact T|]. now apply RT.
Qed.
(** Two decimal parts are cut separately. *)
Theorem C139_cut : forall fp re im e t0 D d1 d2, e_cls e = KComplex \/ e_cls e = KComplexFraction -> e_type e = [t0] -> is_byte t0 -> e_data e = Buf true D -> length D = 18%nat -> wf_bytes D ->
  nth 0 D 0 mod 64 = 12 -> nth 9 D 0 mod 64 = 12 -> cut_bytes 0 re d1 -> cut_bytes 0 im d2 ->
  exists e' dr di, load_complex fp re im e = oret e' /\ e_cls e' = KComplex /\ e_data e' = Buf true (dr ++ di) /\ length dr = 9%nat /\ length di = 9%nat /\ cut_bytes 12 re dr /\ cut_bytes 12 im di.
Proof.
  intros fp re im e t0 D d1 d2 K ET B0 ED LD WD T1 T2 C1 C2. destruct (float_new_cut fp re d1 C1) as (da & EA & LA & WA & CA). destruct (float_new_cut fp im d2 C2) as (db & EB & LB & WB & CB).
  do 3 eexists. split; [apply (parts_new fp re im e t0 D KReal 12 KComplex KReal 12 KComplex da db); auto; now left|]. split; [reflexivity|]. split; [reflexivity|].
  rewrite !retag_length. split; [exact LA|]. split; [exact LB|]. split; [exact CA|exact CB].
Qed.
(** The stored parts: 14 digits starting with a digit other than 0, or zero. *)
Definition digits14 (neg : bool) (x M : Z) : Prop := is_byte x /\ (10 ^ 13 <= M < 10 ^ 14 \/ (M = 0 /\ neg = false /\ x = 128)).
Lemma app_inv_length {A} (a b c d : list A) : length a = length c -> a ++ b = c ++ d -> a = c /\ b = d.
Proof. revert c. induction a as [|x a IH]; intros [|y c] L E; try discriminate L; cbn in E; [tauto|]. injection E as -> E. injection L as L. destruct (IH c L E). now subst. Qed.
Lemma part_cases fp neg x M d m e : payload 12 neg x M d -> digits14 neg x M -> real_float (Buf true d) = Ok (FNum neg m e) ->
  (exists d', float_new fp KReal (FNum neg m e) = oret (Real KReal (Buf true d')) /\ length d' = 9%nat /\ wf_bytes d' /\ (retag 12 d' = d <-> dec_le_bin M (x - 141) m e)) \/
  (float_new fp KReal (FNum neg m e) = oerr OverflowError /\ ~ dec_le_bin M (x - 141) m e).
Proof.
  intros P [X [HM|(-> & -> & ->)]] F.
  - pose proof (C137_back_iff fp KReal 12 neg x M d m e (zeros 9) ltac:(now left) ltac:(lia) P X HM F eq_refl zeros9_wf) as BI. change (nth 0 (zeros 9) 0 mod 128) with 0 in BI.
    destruct (real_float_stored 12 neg x M d ltac:(lia) P X ltac:(lia)) as (m' & e' & F' & B & _). rewrite F in F'. injection F' as <- <-.
    destruct (C136_cut fp KReal neg m e (zeros 9) ltac:(now left) ltac:(lia) eq_refl zeros9_wf) as (M' & x' & T & R1 & R2). change (nth 0 (zeros 9) 0 mod 128) with 0 in R1.
    destruct (is_byteb x') eqn:BX.
    + left. destruct R1 as (d' & E & Q); [unfold is_byteb, is_byte in *; lia|]. exists d'. split; [now apply float_new_decimal|]. assert (BM : 0 <= M' < 10 ^ 14) by (destruct T as [T _]; lia).
      assert (X' : is_byte x') by (unfold is_byteb, is_byte in *; lia). destruct (payload_fields 0 neg x' M' d' ltac:(lia) X' BM Q) as [L W]. split; [exact L|]. split; [exact W|]. rewrite <- BI.
      pose proof Q as Q0. apply payload_stored in Q; [|lia|lia]. pose proof P as P0. apply payload_stored in P; [|lia|lia]. split.
      * intros R. exists d'. split; [exact E|]. rewrite Q, retag_stored, P in R. assert (S : stored 12 neg x' M' = stored 12 neg x M) by (unfold stored in *; cbn [b_data] in *; congruence).
        apply stored_inj in S; [|lia|lia]. destruct S as (S1 & S2 & _). rewrite <- S1, <- S2. exact Q0.
      * intros (d'' & E' & Q'). rewrite E in E'. injection E' as <-. apply payload_stored in Q'; [|lia|lia]. now rewrite Q', retag_stored, P.
    + right. destruct R2 as (b & E); [unfold is_byteb, is_byte in *; lia|]. split; [unfold float_new; change (real_fresh KReal) with (@oret buffer (Buf true (zeros 9))); rewrite obind_oret, E; reflexivity|].
      intros D. apply BI in D as (d' & E' & _). rewrite E in E'. discriminate E'.
  - left. assert (E0 : Buf true d = stored 12 false 128 0) by (apply payload_stored in P; [rewrite P; reflexivity|lia|lia]).
    unfold real_float in F. rewrite E0, real_decimal_stored in F by (auto; unfold is_byte; lia). cbn in F. injection F as <- <-.
    destruct (C136_zero fp KReal false 0 (zeros 9) ltac:(now left) eq_refl zeros9_wf) as (d' & E & Q). change (nth 0 (zeros 9) 0 mod 128) with 0 in Q. exists d'. split; [now apply float_new_decimal|].
    destruct (payload_fields 0 false 128 0 d' ltac:(lia) ltac:(unfold is_byte; lia) ltac:(lia) Q) as [L W]. split; [exact L|]. split; [exact W|].
    apply payload_stored in P, Q; try lia. split; [intros _; unfold dec_le_bin, dec_side, bin_side; lia|]. intros _. now rewrite Q, retag_stored, P.
Qed.
(** A complex number of two decimals comes back from its two floats exactly if neither
    float is below its decimal. *)
Theorem C139_back_iff : forall fp e t0 d1 d2 n1 x1 M1 n2 x2 M2 m1 e1 m2 e2, e_cls e = KComplex \/ e_cls e = KComplexFraction -> e_type e = [t0] -> is_byte t0 -> e_data e = Buf true (d1 ++ d2) ->
  payload 12 n1 x1 M1 d1 -> payload 12 n2 x2 M2 d2 -> digits14 n1 x1 M1 -> digits14 n2 x2 M2 -> complex_floats e = oret (FNum n1 m1 e1, FNum n2 m2 e2) ->
  ((exists e', load_complex fp (FNum n1 m1 e1) (FNum n2 m2 e2) e = oret e' /\ e_data e' = e_data e) <-> dec_le_bin M1 (x1 - 141) m1 e1 /\ dec_le_bin M2 (x2 - 141) m2 e2).
Proof.
  intros fp e t0 d1 d2 n1 x1 M1 n2 x2 M2 m1 e1 m2 e2 K ET B0 ED P1 P2 G1 G2 CF.
  assert (BM : forall n x M, digits14 n x M -> 0 <= M < 10 ^ 14) by (intros n x M [_ H]; lia).
  destruct (payload_fields 12 n1 x1 M1 d1 ltac:(lia) (proj1 G1) (BM _ _ _ G1) P1) as [L1 W1]. destruct (payload_fields 12 n2 x2 M2 d2 ltac:(lia) (proj1 G2) (BM _ _ _ G2) P2) as [L2 W2].
  assert (TG : forall n x M d, payload 12 n x M d -> 0 <= M < 10 ^ 14 -> nth 0 d 0 mod 64 = 12) by (intros n x M d P HM; apply payload_stored in P; [rewrite P; now destruct n|lia|lia]).
  pose proof (TG _ _ _ _ P1 (BM _ _ _ G1)) as T1. pose proof (TG _ _ _ _ P2 (BM _ _ _ G2)) as T2. clear TG.
  destruct (get_parts e d1 d2 KReal 12 KComplex KReal 12 KComplex ED L1 W1 L2 W2 ltac:(now left) ltac:(now left) T1 T2) as [GR GI].
  unfold complex_floats, olift in CF. rewrite GR, obind_oret, GI in CF. cbn [r_buf] in CF. destruct (real_float (Buf true d1)) as [f1|?] eqn:F1; [rewrite obind_ret_l, obind_oret in CF|discriminate CF].
  cbn [r_buf] in CF. destruct (real_float (Buf true d2)) as [f2|?] eqn:F2; [|discriminate CF].
  assert (E12 : (f1, f2) = (FNum n1 m1 e1, FNum n2 m2 e2)) by (apply (f_equal snd) in CF; cbn in CF; congruence). injection E12 as -> ->. clear CF.
  assert (LD : length (d1 ++ d2) = 18%nat) by (rewrite app_length; lia). assert (WD : wf_bytes (d1 ++ d2)) by (now apply wf_bytes_app).
  assert (N1 : nth 0 (d1 ++ d2) 0 mod 64 = 12) by (rewrite app_nth1 by lia; exact T1). assert (N2 : nth 9 (d1 ++ d2) 0 mod 64 = 12) by (rewrite app_nth2 by lia; rewrite L1; exact T2).
  assert (RT : real_type e = Ok KReal).
  { unfold real_type, real_subtype. rewrite ED. change 0 with (Z.of_nat 0) at 1. rewrite (get_bits_at_nth 0 (Buf true (d1 ++ d2)) (nth 0 (d1 ++ d2) 0)); [|apply nth_error_nth'; cbn [b_data]; lia]. now rewrite N1. }
  assert (IT : imag_type e = Ok KReal).
  { unfold imag_type, imag_subtype_get. rewrite ED. change 9 with (Z.of_nat 9) at 1. rewrite (get_bits_at_nth 9 (Buf true (d1 ++ d2)) (nth 9 (d1 ++ d2) 0)); [|apply nth_error_nth'; cbn [b_data]; lia]. now rewrite N2. }
  destruct (part_cases fp n1 x1 M1 d1 m1 e1 P1 G1 F1) as [(da & EA & LA & WA & IA)|[EA NA]].
  - destruct (part_cases fp n2 x2 M2 d2 m2 e2 P2 G2 F2) as [(db & EB & LB & WB & IB)|[EB NB]].
    + rewrite (parts_new fp _ _ e t0 (d1 ++ d2) KReal 12 KComplex KReal 12 KComplex da db) by (auto; now left). rewrite <- IA, <- IB, ED. split.
      * intros (e' & E & Q). apply (f_equal snd) in E. assert (E' : e' = with_cls (with_type (with_data e (Buf true (retag 12 da ++ retag 12 db))) [12]) KComplex) by (unfold oret in E; cbn [snd] in E; congruence).
        rewrite E' in Q. apply (f_equal b_data) in Q. cbn [b_data e_data with_cls with_type with_data] in Q. apply app_inv_length in Q; [exact Q|rewrite retag_length; congruence].
      * intros [Q1 Q2]. eexists. split; [reflexivity|]. cbn [e_data with_cls with_type with_data]. now rewrite Q1, Q2.
    + split; [|tauto]. intros (e' & E & _). exfalso. unfold load_complex in E. rewrite RT, IT in E. unfold olift in E. rewrite !obind_ret_l, EA, obind_oret, EB in E. destruct K as [K|K]; rewrite K in E; discriminate E.
  - split; [|tauto]. intros (e' & E & _). exfalso. unfold load_complex in E. rewrite RT, IT in E. unfold olift in E. rewrite !obind_ret_l, EA in E. destruct K as [K|K]; rewrite K in E; discriminate E.
Qed.
(** 0.5 + 0.3i becomes 0.5 + 0.29999999999999i. *)
Definition cplx3 : entry := with_data cplx0 (Buf true [12; 127; 80; 0; 0; 0; 0; 0; 0; 12; 127; 48; 0; 0; 0; 0; 0; 0]).
Theorem C139_back_refuted : exists re im e', complex_floats cplx3 = oret (re, im) /\ load_complex (fun _ => Err ValueError) re im cplx3 = oret e' /\
  e_data e' = Buf true [12; 127; 80; 0; 0; 0; 0; 0; 0; 12; 127; 41; 153; 153; 153; 153; 153; 153].
Proof.
  exists (FNum false 4503599627370496 (-53)), (FNum false 5404319552844595 (-54)). eexists. split; [vm_compute; reflexivity|]. split; [vm_compute; reflexivity|reflexivity].
Qed.
Print Assumptions C139_cut.
Print Assumptions C139_back_iff.
(** 0.5 - 2.75i, of two exact floats. *)
Example C139_example : exists e', load_complex (fun _ => Err ValueError) (FNum false 1 (-1)) (FNum true 11 (-2)) cplx0 = oret e' /\
  e_data e' = Buf true [12; 127; 80; 0; 0; 0; 0; 0; 0; 140; 128; 39; 80; 0; 0; 0; 0; 0] /\ cut14 11 (-2) 27500000000000 (128 - 141) /\
  load_complex (fun _ => Err ValueError) (FNum false 1 (-1)) (FNum true 11 (-2)) (with_cls cplx0 KComplexPi) = oerr NotImplementedError.
Proof. eexists. split; [vm_compute; reflexivity|]. split; [reflexivity|]. split; [unfold cut14, dec_le_bin, bin_lt_dec; vm_compute; intuition discriminate|reflexivity]. Qed.

(** * C140: int() *)
Lemma int_floor m e M k : k <= 0 -> e < 0 -> 0 <= M -> 2 * Z.abs (bin_side m e k - dec_side M k e) <= bin_side 1 e k -> 90 * Z.abs (bin_side m e k - dec_side M k e) < dec_side 1 k e ->
  m / 2 ^ (- e) = M / 10 ^ (- k).
Proof.
  intros K E HM H CL. unfold bin_side, dec_side, up in H, CL. replace (Z.max k 0) with 0 in * by lia. replace (Z.max e 0) with 0 in * by lia. replace (Z.max (- k) 0) with (- k) in * by lia. replace (Z.max (- e) 0) with (- e) in * by lia.
  change (2 ^ 0) with 1 in *. change (10 ^ 0) with 1 in *. rewrite !Z.mul_1_r, !Z.mul_1_l in *.
  assert (PW : 0 < 2 ^ (- e)) by (apply Z.pow_pos_nonneg; lia). assert (PT : 0 < 10 ^ (- k)) by (apply Z.pow_pos_nonneg; lia). set (w := 2 ^ (- e)) in *. set (t := 10 ^ (- k)) in *. clearbody w t. clear K E e k.
  symmetry. pose proof (Z.div_mod M t ltac:(lia)) as D. pose proof (Z.mod_pos_bound M t PT) as R. set (q := M / t) in *. set (r := M mod t) in *. clearbody q r.
  destruct (Z.eq_dec r 0) as [->|NR].
  - assert (m = q * w); [|subst m; now rewrite Z.div_mul by lia]. assert (Q : 2 * Z.abs ((m - q * w) * t) <= t) by (replace ((m - q * w) * t) with (m * t - M * w) by (rewrite D; ring); exact H). rewrite Z.abs_mul, (Z.abs_eq t) in Q by lia. clear - Q PT. nia.
  - assert (L : q * w * t < m * t) by (assert (w <= r * w) by nia; assert (M * w = q * w * t + r * w) by (rewrite D; ring); lia).
    assert (U : m * t < (q + 1) * w * t) by (assert (r * w <= (t - 1) * w) by nia; assert (M * w = q * w * t + r * w) by (rewrite D; ring); assert ((q + 1) * w * t = q * w * t + (t - 1) * w + w) by ring; lia).
    apply Z.mul_lt_mono_pos_r in L, U; try lia. apply (Z.div_unique m w q (m - q * w)); [left|]; lia.
Qed.
Definition signed (neg : bool) (v : Z) : Z := if neg then - v else v.
(** Up to ten to the fourteenth, [int()] cuts the fraction off, although it goes
    through a float. *)
Theorem C140_cut : forall low neg x M d, 0 <= low < 128 -> payload low neg x M d -> 0 <= x <= 141 -> 10 ^ 13 <= M < 10 ^ 14 ->
  real_int (Buf true d) = Ok (signed neg (M / 10 ^ (141 - x))).
Proof.
  intros low neg x M d LO P X HM. destruct (real_float_stored low neg x M d LO P ltac:(unfold is_byte; lia) ltac:(lia)) as (m & e & F & B & H). pose proof (float_close m e M (x - 141) ltac:(lia) ltac:(lia) H) as CL.
  pose proof (float_fractional m e M x ltac:(lia) ltac:(lia) ltac:(lia) H) as E. unfold real_int. rewrite F. cbn [rbind float_int]. replace (0 <=? e) with false by lia.
  rewrite (int_floor m e M (x - 141)) by (auto; lia). replace (- (x - 141)) with (141 - x) by lia. reflexivity.
Qed.
Theorem C140_zero : forall low neg x d, 0 <= low < 128 -> payload low neg x 0 d -> is_byte x -> real_int (Buf true d) = Ok 0.
Proof.
  intros low neg x d LO P X. apply payload_stored in P; [|lia|lia]. assert (E : Buf true d = stored low neg x 0) by (rewrite P; reflexivity). rewrite E. unfold real_int, real_float.
  rewrite real_decimal_stored by (auto; unfold is_byte in *; lia). cbn [rbind]. change (negb (0 =? 0)) with false. rewrite andb_false_r. rewrite float_of_dec_up. reflexivity.
Qed.
(** Larger numbers are whole; the integer is that number exactly if its float is. *)
Theorem C140_whole_iff : forall low neg x M d m e, 0 <= low < 128 -> payload low neg x M d -> 141 < x <= 255 -> 10 ^ 13 <= M < 10 ^ 14 -> real_float (Buf true d) = Ok (FNum neg m e) ->
  (real_int (Buf true d) = Ok (signed neg (M * 10 ^ (x - 141))) <-> bin_eq_dec m e M (x - 141)).
Proof.
  intros low neg x M d m e LO P X HM F. destruct (real_float_stored low neg x M d LO P ltac:(unfold is_byte; lia) ltac:(lia)) as (m' & e' & F' & B & H). rewrite F in F'. injection F' as <- <-.
  unfold real_int. rewrite F. cbn [rbind float_int]. unfold bin_eq_dec, bin_side, dec_side, up in *. replace (Z.max (x - 141) 0) with (x - 141) in * by lia. replace (Z.max (- (x - 141)) 0) with 0 in * by lia. change (10 ^ 0) with 1 in *.
  assert (S : forall a b, Ok (if neg then - a else a) = Ok (signed neg b) <-> a = b) by (intros a b; unfold signed; destruct neg; split; intros Q; try congruence; assert (- a = - b) by congruence; lia). rewrite S. clear S.
  destruct (0 <=? e) eqn:E.
  - replace (Z.max e 0) with e by lia. replace (Z.max (- e) 0) with 0 by lia. change (2 ^ 0) with 1. lia.
  - replace (Z.max e 0) with 0 in * by lia. replace (Z.max (- e) 0) with (- e) in * by lia. change (2 ^ 0) with 1 in *. assert (PW : 0 < 2 ^ (- e)) by (apply Z.pow_pos_nonneg; lia).
    assert (Q : m = M * 10 ^ (x - 141) * 2 ^ (- e)) by lia. rewrite Q at 1. rewrite Z.div_mul by lia. split; [intros _|reflexivity]. lia.
Qed.
(** In particular below two to the fifty-third. *)
Theorem C140_small : forall low neg x M d, 0 <= low < 128 -> payload low neg x M d -> 141 < x <= 255 -> 10 ^ 13 <= M < 10 ^ 14 -> M * 10 ^ (x - 141) < 2 ^ 53 ->
  real_int (Buf true d) = Ok (signed neg (M * 10 ^ (x - 141))).
Proof.
  intros low neg x M d LO P X HM S. destruct (real_float_stored low neg x M d LO P ltac:(unfold is_byte; lia) ltac:(lia)) as (m & e & F & B & H). apply (C140_whole_iff low neg x M d m e); auto.
  unfold bin_eq_dec, bin_side, dec_side, up in *. replace (Z.max (x - 141) 0) with (x - 141) in * by lia. replace (Z.max (- (x - 141)) 0) with 0 in * by lia. change (10 ^ 0) with 1 in *.
  set (N := M * 10 ^ (x - 141)) in *. assert (N13 : 10 ^ 13 <= N) by (unfold N; assert (0 < 10 ^ (x - 141)) by (apply Z.pow_pos_nonneg; lia); nia).
  assert (N10 : exists N', N = 10 * N') by (exists (M * 10 ^ (x - 142)); unfold N; replace (x - 141) with (Z.succ (x - 142)) by lia; rewrite Z.pow_succ_r by lia; ring). destruct N10 as [N' N10]. clearbody N. destruct (Z.le_gt_cases e 0) as [E|E].
  - replace (Z.max e 0) with 0 in * by lia. change (2 ^ 0) with 1 in *. set (w := 2 ^ Z.max (- e) 0) in *. clearbody w. lia.
  - replace (Z.max e 0) with e in * by lia. replace (Z.max (- e) 0) with 0 in * by lia. change (2 ^ 0) with 1 in *. exfalso.
    assert (2 ^ e = 2 * 2 ^ (e - 1)) by (rewrite <- Z.pow_succ_r by lia; f_equal; lia). assert (0 < 2 ^ (e - 1)) by (apply Z.pow_pos_nonneg; lia). set (w := 2 ^ (e - 1)) in *. clearbody w. rewrite H0 in H. assert (2 ^ 52 * (2 * w) <= m * (2 * w)) by (apply Z.mul_le_mono_nonneg_r; lia). clear - H1 H2 H N10 S. lia.
Qed.
(** [int(TIReal("1e23"))] is another number. *)
Definition ten23 : bytes := [0; 151; 16; 0; 0; 0; 0; 0; 0].
Theorem C140_whole_refuted : exists d, payload 0 false 151 10000000000000 d /\ 10000000000000 * 10 ^ (151 - 141) = 10 ^ 23 /\
  real_int (Buf true d) = Ok 99999999999999991611392.
Proof. exists ten23. split; [apply (stored_payload 0 false 151 10000000000000); lia|]. split; [reflexivity|vm_compute; reflexivity]. Qed.
Print Assumptions C140_cut.
Print Assumptions C140_whole_iff.
Print Assumptions C140_small.
(** -0.99999999999999, 1234567.8901234 and 9.00719925474E15. *)
Example C140_example : real_int (Buf true [128; 127; 153; 153; 153; 153; 153; 153; 153]) = Ok 0 /\ real_int (Buf true [0; 134; 18; 52; 86; 120; 144; 18; 52]) = Ok 1234567 /\
  real_int (Buf true [0; 143; 144; 7; 25; 146; 84; 116; 0]) = Ok 9007199254740000 /\ payload 0 false 134 12345678901234 [0; 134; 18; 52; 86; 120; 144; 18; 52].
Proof. split; [vm_compute; reflexivity|]. split; [vm_compute; reflexivity|]. split; [vm_compute; reflexivity|]. apply (stored_payload 0 false 134 12345678901234). lia. Qed.
