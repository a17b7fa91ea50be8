(** Property theorems C08, C25-C32, C69-C73: real numbers, fractions, radicals. *)
From Verif Require Import L_Base M_Data M_Numeric M_Flags M_Models M_Class M_Var M_Real S_Data L_Data S_Var L_Models L_Var L_VarFile S_Real L_Real L_Frac L_Radical.

(** A zero real number's slot. *)
Definition slot0 : bytes := [0; 128; 0; 0; 0; 0; 0; 0; 0].
Lemma slot9 d : length d = 9%nat -> wf_bytes d ->
  exists c0 c1 r, d = c0 :: c1 :: r /\ length r = 7%nat /\ is_byte c0.
Proof.
  intros L W. destruct d as [|c0 [|c1 r]]; try discriminate L. exists c0, c1, r. split; auto. split; [cbn in L; lia|]. now inversion W.
Qed.

(** C08: nibble fields of a radical: position of the first nibble, setter,
    getter. *)
Definition rad_fields : list (nat * (Z -> buffer -> out buffer) * (buffer -> result Z)) :=
  [(3%nat, set_denominator, get_denominator); (6%nat, set_right_scalar, get_right_scalar);
   (9%nat, set_left_scalar, get_left_scalar); (12%nat, set_right_radicand, get_right_radicand);
   (15%nat, set_left_radicand, get_left_radicand)].
Lemma hi16 a b : 0 <= b < 16 -> (16 * a + b) / 16 = a. Proof. lia. Qed.
Lemma lo16 a b : 0 <= b < 16 -> (16 * a + b) mod 16 = b. Proof. lia. Qed.
Lemma dig2 v : 0 <= v < 1000 -> v / 10 ^ 2 mod 10 = v / 100 /\ 0 <= v / 100 < 10.
Proof. intros H. change (10 ^ 2) with 100. lia. Qed.
Lemma dig1 v : v / 10 ^ 1 mod 10 = v / 10 mod 10 /\ 0 <= v / 10 mod 10 < 10.
Proof. split; [reflexivity|lia]. Qed.
Lemma dig0 v : v / 10 ^ 0 mod 10 = v mod 10 /\ 0 <= v mod 10 < 10.
Proof. change (10 ^ 0) with 1. rewrite Z.div_1_r. lia. Qed.
Lemma digs v : v = 100 * (v / 100) + (10 * (v / 10 mod 10) + v mod 10). Proof. lia. Qed.
Lemma mod16 x : 0 <= x mod 16 < 16. Proof. lia. Qed.
Lemma byte_join a b : 0 <= a < 10 -> 0 <= b < 16 -> is_byte (16 * a + b). Proof. unfold is_byte. lia. Qed.
Lemma byte_join2 a b : is_byte a -> 0 <= b < 16 -> is_byte (16 * (a / 16) + b). Proof. unfold is_byte. lia. Qed.
Theorem C08_nibble_fields : forall k set get d v, In (k, set, get) rad_fields ->
  length d = 9%nat -> wf_bytes d -> 0 <= v < 1000 ->
  exists d', set v (Buf true d) = oret (Buf true d') /\ nibbles_written k 3 v d d' /\ get (Buf true d') = Ok v.
Proof.
  intros k set get d v H L W V. nine d L. clear L. assert (W' := W). unfold wf_bytes in W'.
  repeat match goal with H : Forall is_byte (_ :: _) |- _ => inversion H; subst; clear H end.
  pose proof (dig2 v V) as [E2 B2]. pose proof (dig1 v) as [E1 B1]. pose proof (dig0 v) as [E0 B0]. pose proof (digs v) as DV.
  pose proof (set_denominator_ok z z0 z1 z2 z3 z4 z5 z6 z7 W v V) as S1.
  pose proof (set_right_scalar_ok z z0 z1 z2 z3 z4 z5 z6 z7 W v V) as S2.
  pose proof (set_left_scalar_ok z z0 z1 z2 z3 z4 z5 z6 z7 W v V) as S3.
  pose proof (set_right_radicand_ok z z0 z1 z2 z3 z4 z5 z6 z7 W v V) as S4.
  pose proof (set_left_radicand_ok z z0 z1 z2 z3 z4 z5 z6 z7 W v V) as S5.
  set (a := v / 100) in *. set (b := v / 10 mod 10) in *. set (c := v mod 10) in *. clearbody a b c.
  assert (F : forall x, Forall is_byte x -> wf_bytes x) by auto.
  assert (B1' : 0 <= b < 16) by lia. assert (B2' : 0 <= a < 16) by lia. assert (B0' : 0 <= c < 16) by lia.
  assert (N : nibbles_written k 3 v [z; z0; z1; z2; z3; z4; z5; z6; z7]
     (if Nat.eqb k 3 then [z; 16 * (z0 / 16) + a; 16 * b + c; z2; z3; z4; z5; z6; z7]
      else if Nat.eqb k 6 then [z; z0; z1; 16 * a + b; 16 * c + z3 mod 16; z4; z5; z6; z7]
      else if Nat.eqb k 9 then [z; z0; z1; z2; 16 * (z3 / 16) + a; 16 * b + c; z5; z6; z7]
      else if Nat.eqb k 12 then [z; z0; z1; z2; z3; z4; 16 * a + b; 16 * c + z6 mod 16; z7]
      else [z; z0; z1; z2; z3; z4; z5; 16 * (z6 / 16) + a; 16 * b + c])).
  { destruct H as [H|[H|[H|[H|[H|[]]]]]]; injection H as <- <- <-; cbn [Nat.eqb]; unfold nibbles_written.
    all: split; [reflexivity|]; split; [apply F; repeat (apply Forall_cons; [auto using byte_join, byte_join2, mod16|]); apply Forall_nil|].
    all: intros i Hi; cbn [length Nat.mul Nat.add] in Hi; do 18 (destruct i as [|i];
      [unfold nibble; cbn [Nat.even Nat.div2 nth Nat.leb Nat.ltb andb Nat.add Nat.sub];
       try change (Z.of_nat 2) with 2; try change (Z.of_nat 1) with 1; try change (Z.of_nat 0) with 0;
       rewrite ?E2, ?E1, ?E0; first [reflexivity|apply hi16; auto using mod16|apply lo16; auto using mod16]|]); exfalso; clear -Hi; lia. }
  assert (WN := proj1 (proj2 N)).
  destruct H as [H|[H|[H|[H|[H|[]]]]]]; injection H as <- <- <-; cbn [Nat.eqb] in N, WN; eexists.
  - split; [exact S1|]. split; [exact N|]. apply get_fields in WN as (_ & G & _). rewrite G. rewrite !lo16, !hi16 by auto using mod16. f_equal. clear -DV; lia.
  - split; [exact S2|]. split; [exact N|]. apply get_fields in WN as (_ & _ & G & _). rewrite G. rewrite !lo16, !hi16 by auto using mod16. f_equal. clear -DV; lia.
  - split; [exact S3|]. split; [exact N|]. apply get_fields in WN as (_ & _ & _ & G & _). rewrite G. rewrite !lo16, !hi16 by auto using mod16. f_equal. clear -DV; lia.
  - split; [exact S4|]. split; [exact N|]. apply get_fields in WN as (_ & _ & _ & _ & G & _). rewrite G. rewrite !lo16, !hi16 by auto using mod16. f_equal. clear -DV; lia.
  - split; [exact S5|]. split; [exact N|]. apply get_fields in WN as (_ & _ & _ & _ & _ & G). rewrite G. rewrite !lo16, !hi16 by auto using mod16. f_equal. clear -DV; lia.
Qed.
Print Assumptions C08_nibble_fields.
Theorem C08_sign_field : forall d t, length d = 9%nat -> wf_bytes d -> 0 <= t < 16 ->
  exists d', set_sign_type t (Buf true d) = oret (Buf true d') /\ get_sign_type (Buf true d') = Ok t /\
    length d' = 9%nat /\ wf_bytes d' /\ forall i, (i < 18)%nat -> i <> 2%nat -> nibble d' i = nibble d i.
Proof.
  intros d t L W V. nine d L. clear L. assert (W' := W). unfold wf_bytes in W'.
  repeat match goal with H : Forall is_byte (_ :: _) |- _ => inversion H; subst; clear H end.
  pose proof (set_sign_type_ok z z0 z1 z2 z3 z4 z5 z6 z7 W t V) as S.
  assert (WN : wf_bytes [z; 16 * t + z0 mod 16; z1; z2; z3; z4; z5; z6; z7]).
  { repeat (apply Forall_cons; [first [assumption|clear -V; unfold is_byte; lia]|]). apply Forall_nil. }
  eexists. split; [exact S|]. split.
  { apply get_fields in WN as (G & _). rewrite G, hi16 by apply mod16. reflexivity. }
  split; [reflexivity|]. split; [exact WN|]. intros i Hi N.
  do 18 (destruct i as [|i]; [unfold nibble; cbn [Nat.even Nat.div2 nth]; first [reflexivity|congruence|apply lo16, mod16]|]). exfalso. clear -Hi. lia.
Qed.
Print Assumptions C08_sign_field.
(** The getters read exactly three nibbles, whatever they hold. *)
Theorem C08_nibble_get : forall k set get d, In (k, set, get) rad_fields -> length d = 9%nat -> wf_bytes d ->
  get (Buf true d) = Ok (100 * nibble d k + 10 * nibble d (k + 1) + nibble d (k + 2)).
Proof.
  intros k set get d H L W. nine d L. clear L. pose proof (get_fields _ _ _ _ _ _ _ _ _ W) as (_ & G1 & G2 & G3 & G4 & G5).
  destruct H as [H|[H|[H|[H|[H|[]]]]]]; injection H as <- <- <-; [rewrite G1|rewrite G2|rewrite G3|rewrite G4|rewrite G5];
    unfold nibble; cbn [Nat.even Nat.div2 nth Nat.add]; f_equal; clear; lia.
Qed.
Print Assumptions C08_nibble_get.
(** Four-digit values spill into the neighbouring nibble, without a warning. *)
Theorem C08_wide_refuted : exists d d', length d = 9%nat /\ wf_bytes d /\ get_sign_type (Buf true d) = Ok 0 /\
  set_denominator 1000 (Buf true d) = oret (Buf true d') /\ get_sign_type (Buf true d') = Ok 1.
Proof.
  exists [28; 0; 1; 0; 0; 1; 0; 0; 1], [28; 16; 0; 0; 0; 1; 0; 0; 1]. split; [reflexivity|]. split; [wf9|]. split; [reflexivity|].
  split; vm_compute; reflexivity.
Qed.
Print Assumptions C08_wide_refuted.
Example C08_example : In (6%nat, set_right_scalar, get_right_scalar) rad_fields /\
  set_right_scalar 123 (Buf true [28; 0; 1; 153; 153; 153; 0; 0; 1]) = oret (Buf true [28; 0; 1; 18; 57; 153; 0; 0; 1]) /\
  nibble [28; 0; 1; 18; 57; 153; 0; 0; 1] 6 = 1 /\ nibble [28; 0; 1; 18; 57; 153; 0; 0; 1] 9 = 9.
Proof. split; [cbn; auto|]. split; [vm_compute; reflexivity|split; reflexivity]. Qed.

(** C25 and C26: loading a literal.  The stored number has the sign of the
    literal and the fourteen leading digits of its value. *)
Definition pi_lit : literal := Lit (s2l "~") [3] (Some [1; 4; 1; 5; 9; 2; 6; 5; 3; 5; 8; 9; 7; 9; 3; 2; 3]) (Some (s2l "|e", s2l "-", [1; 2])).
Lemma pi_lit_wf : lit_wf pi_lit.
Proof.
  unfold lit_wf. cbn. split; [auto|]. split; [repeat constructor; unfold digit; lia|]. split; [repeat constructor; unfold digit; lia|].
  split; [lia|]. split; [auto|]. split; [auto|]. split; [repeat constructor; unfold digit; lia|discriminate].
Qed.
Theorem C26_truncates : forall l s d, lit_wf l -> unspaced s = lit_text l -> length d = 9%nat -> wf_bytes d ->
  lit_coef l <> 0 ->
  exists m x, truncated14 (lit_coef l) (lit_scale l) m (x - 141) /\
    (is_byte x -> exists d', real_load s (Buf true d) = (Buf true d', oret tt) /\
        payload (nth 0 d 0 mod 128) (lit_neg l) x m d' /\
        real_decimal (Buf true d') = Ok (Dec (lit_neg l) m (x - 141))) /\
    (~ is_byte x -> exists b, real_load s (Buf true d) = (b, oerr OverflowError)).
Proof.
  intros l s d W U L WD NZ. rewrite unspaced_squash in U. destruct (slot9 d L WD) as (c0 & c1 & r & -> & Lr & B0).
  destruct (real_load_spec l s c0 c1 r W U Lr B0) as [_ R]. destruct (R NZ) as (m & x & T & E). exists m, x. split; [exact T|].
  destruct T as [TM _]. rewrite E. split.
  - intros B. replace (is_byteb x) with true by (symmetry; now apply is_byteb_spec). exists (b_data (stored c0 (lit_neg l) x m)).
    split; [reflexivity|]. split; [apply stored_payload; lia|].
    change (Buf true (b_data (stored c0 (lit_neg l) x m))) with (stored c0 (lit_neg l) x m). rewrite real_decimal_stored by (auto; lia).
    replace (m =? 0) with false by lia. cbn [negb]. now rewrite andb_true_r.
  - intros B. replace (is_byteb x) with false; [eauto|]. symmetry. apply not_true_is_false. intros C. now apply is_byteb_spec in C.
Qed.
Print Assumptions C26_truncates.
(** The fourteen digits and the exponent are determined by the value. *)
Theorem C26_unique : forall n y m x m' x', truncated14 n y m x -> truncated14 n y m' x' -> m = m' /\ x = x'.
Proof. exact truncated14_unique. Qed.
Print Assumptions C26_unique.
Example C26_example : lit_wf pi_lit /\ unspaced (s2l "~3. 14159265358979323|e-12") = lit_text pi_lit /\
  real_load (s2l "~3. 14159265358979323|e-12") (Buf true slot0) =
  (Buf true [128; 116; 49; 65; 89; 38; 83; 88; 151], oret tt) /\
  truncated14 (lit_coef pi_lit) (lit_scale pi_lit) 31415926535897 (116 - 141).
Proof.
  split; [exact pi_lit_wf|]. split; [reflexivity|]. split; [vm_compute; reflexivity|].
  unfold truncated14, sci_le, sci_lt. vm_compute. repeat split; intros H; discriminate H.
Qed.
Theorem C25_exact : forall l s d n k, lit_wf l -> unspaced s = lit_text l -> length d = 9%nat -> wf_bytes d ->
  lit_coef l = n * 10 ^ k -> 0 <= k -> 0 < n < 10 ^ 14 ->
  exists m x, sci_eq m (x - 141) (lit_coef l) (lit_scale l) /\ 10 ^ 13 <= m < 10 ^ 14 /\
    (is_byte x -> exists d', real_load s (Buf true d) = (Buf true d', oret tt) /\
        payload (nth 0 d 0 mod 128) (lit_neg l) x m d' /\
        real_decimal (Buf true d') = Ok (Dec (lit_neg l) m (x - 141))) /\
    (~ is_byte x -> exists b, real_load s (Buf true d) = (b, oerr OverflowError)).
Proof.
  intros l s d n k W U L WD E K N. pose proof (pow10_pos k K) as P.
  destruct (C26_truncates l s d W U L WD) as (m & x & T & R); [rewrite E; nia|]. exists m, x.
  split; [eapply truncated14_exact; eauto; lia|]. split; [apply T|exact R].
Qed.
Print Assumptions C25_exact.
Theorem C25_zero : forall l s d, lit_wf l -> unspaced s = lit_text l -> length d = 9%nat -> wf_bytes d ->
  lit_coef l = 0 ->
  exists d', real_load s (Buf true d) = (Buf true d', oret tt) /\ payload (nth 0 d 0 mod 128) (lit_neg l) 128 0 d'.
Proof.
  intros l s d W U L WD Z0. rewrite unspaced_squash in U. destruct (slot9 d L WD) as (c0 & c1 & r & -> & Lr & B0).
  destruct (real_load_spec l s c0 c1 r W U Lr B0) as [R _]. exists (b_data (stored c0 (lit_neg l) 128 0)). rewrite (R Z0).
  split; [reflexivity|]. apply stored_payload. lia.
Qed.
Print Assumptions C25_zero.
(** Superfluous leading zeros are not harmless: "012" loads as 1.2. *)
Theorem C25_leading_zero_refuted : exists s d', Forall (fun c => 48 <= c <= 57) s /\ parse_int 10 s = Ok 12 /\
  real_load s (Buf true slot0) = (Buf true d', oret tt) /\ real_decimal (Buf true d') = Ok (Dec false 1200000000000 (-12)).
Proof.
  exists (s2l "012"), [0; 129; 1; 32; 0; 0; 0; 0; 0]. split; [change (s2l "012") with [48; 49; 50]; repeat (apply Forall_cons; [lia|]); apply Forall_nil|]. split; [reflexivity|]. split; vm_compute; reflexivity.
Qed.
Print Assumptions C25_leading_zero_refuted.
Example C25_example : exists l, lit_wf l /\ unspaced (s2l "-1234.50") = lit_text l /\ lit_coef l = 12345 * 10 ^ 1 /\
  real_load (s2l "-1234.50") (Buf true slot0) = (Buf true [128; 131; 18; 52; 80; 0; 0; 0; 0], oret tt).
Proof.
  exists (Lit (s2l "-") [1; 2; 3; 4] (Some [5; 0]) None).
  split; [unfold lit_wf; cbn; repeat (first [split|constructor]); auto; unfold digit; lia|].
  split; [reflexivity|]. split; [reflexivity|]. vm_compute. reflexivity.
Qed.

(** C27: printing and reading back. *)
Theorem C27_string_roundtrip_iff : forall low neg x m d d0, 0 <= low < 128 -> payload low neg x m d -> is_byte x ->
  10 ^ 13 <= m < 10 ^ 14 -> length d0 = 9%nat -> wf_bytes d0 ->
  exists s, real_string (Buf true d) = Ok s /\
    ((exists d', real_load s (Buf true d0) = (Buf true d', oret tt) /\ payload (nth 0 d0 0 mod 128) neg x m d') <->
     (x < 127 -> m mod 10 ^ (127 - x) = 0)).
Proof.
  intros low neg x m d d0 HL P X M L0 W0. apply payload_stored in P; auto; [|lia]. destruct (slot9 d0 L0 W0) as (c0 & c1 & r & -> & Lr & B0).
  destruct (real_reload low neg x m c0 c1 r) as (s & S & R); auto; [unfold is_byte; lia|]. exists s. split.
  { rewrite P. exact S. }
  rewrite <- R. cbn [nth]. split.
  - intros (d' & E & P'). rewrite E. apply payload_stored in P'; [|lia|lia]. rewrite P'. unfold stored. cbn [b_data].
    now rewrite Zmod_mod.
  - intros E. exists (b_data (stored c0 neg x m)). rewrite E. split; [reflexivity|apply stored_payload; lia].
Qed.
Print Assumptions C27_string_roundtrip_iff.
(** Zero comes back as zero, without its sign. *)
Theorem C27_zero : forall low neg x d d0, 0 <= low < 128 -> payload low neg x 0 d -> is_byte x ->
  length d0 = 9%nat -> wf_bytes d0 ->
  exists d', real_string (Buf true d) = Ok (s2l "0") /\ real_load (s2l "0") (Buf true d0) = (Buf true d', oret tt) /\
    payload (nth 0 d0 0 mod 128) false 128 0 d'.
Proof.
  intros low neg x d d0 HL P X L0 W0. apply payload_stored in P; auto; [|lia].
  destruct (C25_zero (Lit [] [0] None None) (s2l "0") d0) as (d' & E & Q); auto.
  { unfold lit_wf. cbn. repeat apply conj; auto. constructor; [unfold digit; lia|constructor]. }
  exists d'. split; [|split; [exact E|exact Q]]. rewrite P. apply (real_string_zero low neg x); [unfold is_byte; lia|exact X].
Qed.
Print Assumptions C27_zero.
Theorem C27_string_roundtrip_refuted : exists d s d', length d = 9%nat /\ real_string (Buf true d) = Ok s /\
  real_load s (Buf true slot0) = (Buf true d', oret tt) /\ d' <> d /\ s = s2l "0".
Proof.
  exists [0; 108; 16; 0; 0; 0; 0; 0; 0], (s2l "0"), slot0. split; [reflexivity|]. split; [vm_compute; reflexivity|].
  split; [vm_compute; reflexivity|]. split; [discriminate|reflexivity].
Qed.
Print Assumptions C27_string_roundtrip_refuted.
Example C27_example : payload 0 true 129 12340000000000 [128; 129; 18; 52; 0; 0; 0; 0; 0] /\
  real_string (Buf true [128; 129; 18; 52; 0; 0; 0; 0; 0]) = Ok (s2l "-12.34").
Proof.
  split; [|vm_compute; reflexivity]. split; [reflexivity|]. split; [reflexivity|]. split; [reflexivity|]. intros i H.
  do 7 (destruct i as [|i]; [reflexivity|]). lia.
Qed.

(** C28: failure is not atomic: the mantissa is already overwritten when the
    exponent is refused. *)
Theorem C28_atomic_refuted : exists s d b, length d = 9%nat /\ wf_bytes d /\
  real_load s (Buf true d) = (b, oerr OverflowError) /\ b <> Buf true d.
Proof.
  exists (s2l "5e999"), [0; 129; 18; 0; 0; 0; 0; 0; 0], (Buf true [0; 129; 80; 0; 0; 0; 0; 0; 0]). split; [reflexivity|]. split; [wf9|].
  split; [vm_compute; reflexivity|]. discriminate.
Qed.
Print Assumptions C28_atomic_refuted.
(** Exactly what a refused exponent leaves behind: the new digits under the
    old sign and exponent. *)
Theorem C28_overflow_leaves_mantissa : forall l s d x m, lit_wf l -> unspaced s = lit_text l -> length d = 9%nat -> wf_bytes d ->
  truncated14 (lit_coef l) (lit_scale l) m (x - 141) -> ~ is_byte x ->
  exists d', real_load s (Buf true d) = (Buf true d', oerr OverflowError) /\
    payload (nth 0 d 0) false (nth 1 d 0) m d'.
Proof.
  intros l s d x m W U L WD T NB. rewrite unspaced_squash in U. destruct (slot9 d L WD) as (c0 & c1 & r & -> & Lr & B0).
  pose proof (truncated14_pos _ _ _ _ T) as PZ.
  destruct (real_load_spec l s c0 c1 r W U Lr B0) as [_ R]. destruct (R ltac:(lia)) as (m' & x' & T' & E).
  destruct (truncated14_unique _ _ _ _ _ _ T T') as [<- Ex]. assert (x' = x) by lia. subst x'.
  exists (c0 :: c1 :: mant m). rewrite E. replace (is_byteb x) with false.
  2:{ symmetry. apply not_true_is_false. intros C. now apply is_byteb_spec in C. }
  split; [reflexivity|]. cbn [nth]. pose proof (mant_payload c0 false c1 m) as Q. cbv iota in Q. rewrite Z.add_0_r in Q. apply Q.
  destruct T; lia.
Qed.
Print Assumptions C28_overflow_leaves_mantissa.
Example C28_example : exists l, lit_wf l /\ unspaced (s2l "-12.5e300") = lit_text l /\
  truncated14 (lit_coef l) (lit_scale l) 12500000000000 (429 - 141) /\ ~ is_byte 429 /\
  real_load (s2l "-12.5e300") (Buf true [0; 129; 80; 0; 0; 0; 0; 0; 0]) = (Buf true [0; 129; 18; 80; 0; 0; 0; 0; 0], oerr OverflowError).
Proof.
  exists (Lit (s2l "-") [1; 2] (Some [5]) (Some (s2l "e", s2l "", [3; 0; 0]))).
  split; [unfold lit_wf, is_sign, is_mark; cbn; repeat split; try (repeat constructor; unfold digit; lia); try (now right; left); try (now left); try lia; discriminate|].
  split; [reflexivity|]. split; [unfold truncated14, sci_le, sci_lt; repeat split; vm_compute; congruence|].
  split; [unfold is_byte; lia|]. vm_compute. reflexivity.
Qed.

(** C29: negation.  The classes with a type of their own. *)
Definition real_class (c : cls) : Prop :=
  In c [KReal; KUndefReal; KRealFraction; KRealRadical; KRealPi; KRealPiFraction].
Lemma load_class ps c e w e' : real_class c -> storable e -> ~ ambiguous e ->
  entry_load ps c (image_of e) = (w, Ok e') -> e_cls e' = c.
Proof.
  intros RC St NA H. destruct St as [M (t & T & Bt) N (v & V & Bv) (a & A & Ba) NF D Mut].
  assert (FC : forall x w1, e_cls x = c -> finish ps x = (w1, Ok e') -> e_cls e' = c).
  { intros x w1 Ex F. unfold finish in F. replace (coerce ps x) with (oret x) in F.
    2:{ unfold coerce, coerce_own. rewrite Ex. destruct RC as [<-|[<-|[<-|[<-|[<-|[<-|[]]]]]]]; reflexivity. }
    unfold oret at 1 in F. rewrite obind_ret_l in F. apply obind_ok in F as (? & ? & ? & _ & F & _). apply obind_ok in F as (? & ? & ? & _ & F & _).
    apply obind_ok in F as (? & ? & ? & _ & F & _). injection F as _ <-. exact Ex. }
  rewrite <- (app_nil_r (image_of e)) in H. unfold image_of in H. rewrite T in H. destruct M as [M|M]; rewrite M in H.
  - destruct (NF M) as [NV NAr]. rewrite NV in V. rewrite NAr in A. injection V as <-. injection A as <-.
    change (leqb (le16 11) [13; 0]) with false in H. cbv iota in H. rewrite load_image_11 in H by auto.
    apply obind_ok in H as (? & ? & ? & _ & H & _). eapply FC; [|exact H]. reflexivity.
  - change (leqb (le16 13) [13; 0]) with true in H. cbv iota in H. rewrite V, A in H. change ([v] ++ [a]) with [v; a] in H.
    rewrite load_image_13 in H; auto.
    + apply obind_ok in H as (? & ? & ? & _ & H & _). apply obind_ok in H as (? & ? & ? & _ & H & _). eapply FC; [|exact H]. reflexivity.
    + intros Q. apply NA. split; auto. now rewrite V, A.
Qed.
Theorem C29_negation : forall ps e, real_class (e_cls e) -> storable e -> ~ ambiguous e ->
  length (b_data (e_data e)) = 9%nat -> wf_bytes (b_data (e_data e)) ->
  exists w n w' n', real_neg ps e = (w, Ok n) /\
    e_cls n = e_cls e /\ e_meta n = e_meta e /\ e_type n = e_type e /\ e_name n = e_name e /\
    e_version n = e_version e /\ e_archived n = e_archived e /\
    top_flipped (b_data (e_data e)) (b_data (e_data n)) /\
    real_neg ps n = (w', Ok n') /\ n' = e.
Proof.
  assert (G : forall ps e, real_class (e_cls e) -> storable e -> ~ ambiguous e ->
    length (b_data (e_data e)) = 9%nat -> wf_bytes (b_data (e_data e)) -> exists w c0 r, b_data (e_data e) = c0 :: r /\
      real_neg ps e = (w, Ok (with_data e (Buf true (c0 mod 128 + (if c0 <? 128 then 128 else 0) :: r))))).
  { intros ps e RC St NA L W.
    assert (LA : loadable_as (e_cls e) e).
    { destruct (st_type e St) as (t & T & _). exists t. split; auto. destruct RC as [<-|[<-|[<-|[<-|[<-|[<-|[]]]]]]]; exact I. }
    destruct (load_storable ps (e_cls e) e [] St NA LA) as (w & e' & H & SR & _). rewrite app_nil_r in H.
    pose proof (load_class ps _ e w e' RC St NA H) as CL.
    destruct (b_data (e_data e)) as [|c0 r] eqn:ED; [discriminate L|]. assert (B0 : is_byte c0) by (now inversion W).
    exists w, c0, r. split; [reflexivity|]. unfold real_neg, entry_copy. rewrite (entry_bytes_image e St). cbn [obind olift].
    rewrite H. assert (E' : e' = e).
    { destruct SR as (S1 & S2 & S3 & S4 & S5 & S6). destruct e, e'. cbn in *. congruence. }
    subst e'. cbn [obind app]. assert (MU := st_mut e St).
    replace (e_data e) with (Buf true (c0 :: r)) by (destruct (e_data e); cbn in *; congruence).
    cbn [length] in L. rewrite sign_get by (auto; lia). cbn [obind olift].
    assert (X : 1 - c0 / 128 = Z.b2z (c0 <? 128)) by (unfold is_byte in B0; destruct (c0 <? 128) eqn:Q; cbn; lia).
    rewrite X, set_sign_ok by (auto; lia). cbn [obind app oret]. repeat rewrite app_nil_r. reflexivity. }
  intros ps e RC St NA L W. destruct (G ps e RC St NA L W) as (w & c0 & r & ED & E).
  rewrite ED in L, W. assert (B0 : is_byte c0) by (now inversion W). unfold is_byte in B0.
  set (c1 := c0 mod 128 + (if c0 <? 128 then 128 else 0)) in *. set (n := with_data e (Buf true (c1 :: r))) in *.
  assert (C1 : c1 = (c0 + 128) mod 256) by (unfold c1; destruct (c0 <? 128) eqn:Q; lia).
  assert (Dn : b_data (e_data n) = c1 :: r) by reflexivity.
  assert (Stn : storable n).
  { destruct St as [M T N V A NF D Mut]. constructor; auto. rewrite ED in D. rewrite Dn. exact D. }
  assert (NAn : ~ ambiguous n).
  { intros [A1 A2]. apply NA. split; auto. rewrite ED. rewrite Dn in A2. exact A2. }
  destruct (G ps n RC Stn NAn) as (w' & c & r' & EN & E2).
  { rewrite Dn. exact L. } { rewrite Dn. inversion W; subst. constructor; auto. unfold is_byte. clear -C1. lia. }
  rewrite Dn in EN. injection EN as <- <-.
  exists w, n, w', e. split; [exact E|]. do 6 (split; [reflexivity|]). split.
  - rewrite ED, Dn. split; [reflexivity|]. split; [exact C1|]. intros [|i] Hi; [congruence|reflexivity].
  - split; [|reflexivity]. rewrite E2. do 2 f_equal. pose proof (st_mut e St) as Mut. unfold n, with_data. cbn.
    replace (c1 mod 128 + (if c1 <? 128 then 128 else 0)) with c0.
    2:{ unfold c1. clear -B0. destruct (Z.ltb_spec c0 128).
      - replace (c0 mod 128 + 128 <? 128) with false by lia. lia.
      - replace (c0 mod 128 + 0 <? 128) with true by lia. lia. }
    rewrite <- ED. destruct e as [x1 x2 x3 x4 x5 x6 [m dd]]. cbn in *. now rewrite Mut.
Qed.
Print Assumptions C29_negation.
Definition real5 : entry := Entry KReal [13; 0] [0] (65 :: zeros 7) [0] [128] (Buf true [0; 128; 80; 0; 0; 0; 0; 0; 0]).
Example C29_example : real_class (e_cls real5) /\ storable real5 /\ ~ ambiguous real5 /\
  real_neg (fun _ => None) real5 =
  ([], Ok (Entry KReal [13; 0] [0] (65 :: zeros 7) [0] [128] (Buf true [128; 128; 80; 0; 0; 0; 0; 0; 0]))).
Proof.
  split; [cbn; auto|]. split; [|split; [intros [_ H]; vm_compute in H; discriminate H|vm_compute; reflexivity]].
  constructor; cbn; try (eexists; split; [reflexivity|unfold is_byte; lia]); auto; [intros H; discriminate H|reflexivity].
Qed.

(** C69: negating a radical.  The sign of a radical lives in its sign type,
    which the inherited [__neg__] does not touch: every component stays. *)
Theorem C69_negated_radical_unchanged : forall ps e, e_cls e = KRealRadical -> storable e -> ~ ambiguous e ->
  length (b_data (e_data e)) = 9%nat -> wf_bytes (b_data (e_data e)) ->
  exists w n, real_neg ps e = (w, Ok n) /\
    signed_left_scalar (e_data n) = signed_left_scalar (e_data e) /\
    signed_right_scalar (e_data n) = signed_right_scalar (e_data e) /\
    get_left_radicand (e_data n) = get_left_radicand (e_data e) /\
    get_right_radicand (e_data n) = get_right_radicand (e_data e) /\
    get_denominator (e_data n) = get_denominator (e_data e).
Proof.
  intros ps e C St NA L W. destruct (C29_negation ps e) as (w & n & _ & _ & E & _ & _ & _ & _ & _ & _ & (FL & F0 & FR) & _); auto.
  { rewrite C. cbn. auto. }
  exists w, n. split; [exact E|].
  assert (MN : e_data n = Buf true (b_data (e_data n))).
  { unfold real_neg in E. apply obind_ok in E as (? & n0 & ? & _ & E & _). apply obind_ok in E as (? & ? & ? & _ & E & _).
    apply obind_ok in E as (? & b & ? & Eb & E & _). injection E as _ <-. cbn. unfold set_sign, view_set in Eb.
    apply obind_ok in Eb as (? & ? & ? & _ & Eb & _).
    destruct (b_mut (e_data n0)); [|discriminate Eb]. injection Eb as _ <-. reflexivity. }
  assert (ME : e_data e = Buf true (b_data (e_data e))) by (pose proof (st_mut e St); destruct (e_data e); cbn in *; congruence).
  rewrite MN, ME. clear MN ME.
  set (d := b_data (e_data e)) in *. set (d' := b_data (e_data n)) in *. clearbody d d'.
  assert (W' : wf_bytes d').
  { apply Forall_forall. intros x Hx. apply (In_nth _ _ 0) in Hx as (i & Hi & <-). destruct i as [|i].
    - rewrite F0. unfold is_byte. lia.
    - rewrite FR by lia. apply Forall_forall with (l := d) (x := nth (S i) d 0) in W; auto. apply nth_In. lia. }
  assert (T : tl d' = tl d).
  { apply (nth_ext _ _ 0 0); [destruct d, d'; try discriminate; cbn in *; lia|]. intros i _.
    specialize (FR (S i) ltac:(lia)). destruct d, d'; try discriminate; exact FR. }
  clear F0 FR. rewrite L in FL. nine d L. nine d' FL. cbn [tl] in T. injection T as -> -> -> -> -> -> -> ->.
  apply get_fields in W as (A1 & A2 & A3 & A4 & A5 & A6). apply get_fields in W' as (B1 & B2 & B3 & B4 & B5 & B6).
  unfold signed_left_scalar, signed_right_scalar. rewrite A1, A2, A3, A4, A5, A6, B1, B2, B3, B4, B5, B6. repeat split; reflexivity.
Qed.
Print Assumptions C69_negated_radical_unchanged.
Definition sqrt2 : entry := Entry KRealRadical [13; 0] [28] (65 :: zeros 7) [16] [0] (Buf true [28; 0; 1; 0; 0; 1; 0; 0; 2]).
(** The claim "-x is the negative of x" fails already for the square root of 2. *)
Theorem C69_negation_refuted : exists e n a b, storable e /\ real_neg (fun _ => None) e = ([], Ok n) /\
  signed_left_scalar (e_data e) = Ok a /\ signed_left_scalar (e_data n) = Ok b /\ a <> 0 /\ b <> - a.
Proof.
  exists sqrt2, (with_data sqrt2 (Buf true [156; 0; 1; 0; 0; 1; 0; 0; 2])), 1, 1. split.
  - constructor; cbn; try (eexists; split; [reflexivity|unfold is_byte; lia]); auto; [intros H; discriminate H|reflexivity].
  - split; [vm_compute; reflexivity|]. split; [vm_compute; reflexivity|]. split; [vm_compute; reflexivity|lia].
Qed.
Print Assumptions C69_negation_refuted.
Example C69_example : storable sqrt2 /\ ~ ambiguous sqrt2 /\ e_cls sqrt2 = KRealRadical /\
  exists w n, real_neg (fun _ => None) sqrt2 = (w, Ok n) /\ e_data n <> e_data sqrt2 /\
    signed_left_scalar (e_data n) = Ok 1 /\ get_left_radicand (e_data n) = Ok 2 /\ get_denominator (e_data n) = Ok 1.
Proof.
  split; [constructor; cbn; try (eexists; split; [reflexivity|unfold is_byte; lia]); auto; [intros H; discriminate H|reflexivity]|].
  split; [intros [_ X]; discriminate X|]. split; [reflexivity|]. eexists _, _. split; [vm_compute; reflexivity|].
  split; [discriminate|]. repeat split; vm_compute; reflexivity.
Qed.

(** C30: fractions. *)
Theorem C30_fraction_roundtrip : forall n d slot, 1 <= d <= 10000 -> Z.gcd n d = 1 -> Z.abs n < 10 ^ 5 * d ->
  length slot = 9%nat -> wf_bytes slot ->
  exists b, load_fraction n d (Buf true slot) = (b, oret tt) /\ real_fraction b = Ok (n, d).
Proof.
  intros n d slot Hd G Hn L W. destruct (slot9 slot L W) as (c0 & c1 & r & -> & Lr & B0). now apply fraction_roundtrip.
Qed.
Print Assumptions C30_fraction_roundtrip.
(** Without the bound on the magnitude it fails: 14 digits are not enough. *)
Theorem C30_large_refuted : exists n d b x, 1 <= d <= 10000 /\ Z.gcd n d = 1 /\
  load_fraction n d (Buf true slot0) = (b, oret tt) /\ real_fraction b = Ok x /\ x <> (n, d).
Proof.
  exists 12345678901234, 9973, (Buf true [0; 137; 18; 55; 145; 2; 71; 121; 36]), (3094775619481, 2500).
  split; [lia|]. split; [reflexivity|]. split; [vm_compute; reflexivity|]. split; [vm_compute; reflexivity|]. discriminate.
Qed.
Print Assumptions C30_large_refuted.
Example C30_example : Z.gcd (-22) 7 = 1 /\
  load_fraction (-22) 7 (Buf true slot0) = (Buf true [128; 128; 49; 66; 133; 113; 66; 133; 113], oret tt) /\
  real_fraction (Buf true [128; 128; 49; 66; 133; 113; 66; 133; 113]) = Ok (-22, 7).
Proof. split; [reflexivity|]. split; vm_compute; reflexivity. Qed.

(** C71: what [fraction()] returns is a closest fraction among those with a
    denominator of at most M, in lowest terms. *)
Theorem C71_limit_denominator_closest : forall N D M r s, 0 < D -> Z.gcd N D = 1 -> 1 <= M ->
  limit_denominator M (N, D) = (r, s) ->
  1 <= s <= M /\ Z.gcd r s = 1 /\
  forall u v, 1 <= v <= M -> Z.abs (r * D - N * s) * v <= Z.abs (u * D - N * v) * s.
Proof.
  intros N D M r s HD G HM E. destruct (Z.le_gt_cases D M) as [Le|Gt].
  - unfold limit_denominator in E. replace (D <=? M) with true in E by lia. injection E as <- <-.
    split; [lia|]. split; [exact G|]. intros u v Hv. replace (N * D - N * D) with 0 by lia. cbn [Z.abs]. nia.
  - eapply limit_closest; eauto.
Qed.
Print Assumptions C71_limit_denominator_closest.
Example C71_example : Z.gcd 314159 100000 = 1 /\ limit_denominator 100 (314159, 100000) = (311, 99) /\
  limit_denominator 1000 (314159, 100000) = (355, 113).
Proof. split; [reflexivity|]. split; vm_compute; reflexivity. Qed.

(** C72: [load_decimal] stores any Decimal of at most 14 digits exactly, and
    [decimal()] returns it. *)
Theorem C72_decimal_roundtrip : forall dc d n k, d_coef dc = n * 10 ^ k -> 0 <= k -> 0 < n < 10 ^ 14 ->
  length d = 9%nat -> wf_bytes d ->
  exists m x, sci_eq m (x - 141) (d_coef dc) (d_exp dc) /\ 10 ^ 13 <= m < 10 ^ 14 /\
    (is_byte x -> exists d', real_load_decimal dc (Buf true d) = (Buf true d', oret tt) /\
        real_decimal (Buf true d') = Ok (Dec (d_neg dc) m (x - 141))) /\
    (~ is_byte x -> exists b, real_load_decimal dc (Buf true d) = (b, oerr OverflowError)).
Proof.
  intros dc d n k E K N L W. pose proof (pow10_pos k K) as P.
  destruct (dec_str_literal dc) as (l & WL & T & Sq & LN & LC & LS); [nia|].
  destruct (C25_exact l (lit_text l) d n k) as (m & x & A & B & C & D); auto; [now rewrite unspaced_squash|congruence|].
  exists m, x. unfold real_load_decimal. rewrite T, <- LN, <- LC, <- LS. split; [exact A|]. split; [exact B|]. split; [|exact D].
  intros X. destruct (C X) as (d' & F & _ & G). eauto.
Qed.
Print Assumptions C72_decimal_roundtrip.
Example C72_example : real_load_decimal (Dec true 12345 (-30)) (Buf true slot0) =
    (Buf true [128; 102; 18; 52; 80; 0; 0; 0; 0], oret tt) /\
  real_decimal (Buf true [128; 102; 18; 52; 80; 0; 0; 0; 0]) = Ok (Dec true 12345000000000 (-39)).
Proof. split; vm_compute; reflexivity. Qed.

(** C31: radicals.  The text may contain spaces, parentheses and "*". *)
Definition left_part (r : radical) : Z :=
  let B := radicand (r_fst r) in let D := radicand2 r in
  if B <? D then scalar2 r else if B =? D then scalar (r_fst r) + scalar2 r else scalar (r_fst r).
Theorem C31_radical_value : forall r s d, rad_wf r -> without (spaces ++ s2l "()*") s = rad_text r ->
  length d = 9%nat -> wf_bytes d -> denominator r <> 0 -> left_part r <> 0 ->
  Z.abs (scalar (r_fst r)) < 1000 -> radicand (r_fst r) < 1000 -> Z.abs (scalar2 r) < 1000 -> radicand2 r < 1000 ->
  Z.abs (denominator r) < 1000 ->
  (radicand (r_fst r) = radicand2 r -> Z.abs (scalar (r_fst r) + scalar2 r) < 1000) ->
  exists d' ls lr rs rr e, let b := Buf true d' in
    radical_load s (Buf true d) = (b, oret tt) /\ nth 0 d' 0 = nth 0 d 0 /\
    signed_left_scalar b = Ok ls /\ get_left_radicand b = Ok lr /\
    signed_right_scalar b = Ok rs /\ get_right_radicand b = Ok rr /\ get_denominator b = Ok e /\
    same_radical (scalar (r_fst r)) (radicand (r_fst r)) (scalar2 r) (radicand2 r) (denominator r) ls lr rs rr e /\
    0 < e < 1000 /\ ls <> 0 /\ (rr < lr \/ rs = 0 /\ rr = 0).
Proof.
  intros r s d W T L WD E0 L0 b1 b2 b3 b4 b5 b6.
  destruct (radical_load_spec r s d W T L WD) as [_ R].
  destruct (R E0 L0 b1 b2 b3 b4 b5 b6) as (t & e & ls & rs & lr & rr & H & H1 & H2 & H3 & H4 & H5 & H6 & H7 & H8).
  assert (B0 : is_byte (nth 0 d 0)) by (destruct d; [discriminate L|]; now inversion WD).
  destruct (rad_read (nth 0 d 0) t e ls rs lr rr) as (G1 & G2 & G3 & G4 & G5 & G6); auto; try lia.
  exists (rad_buf (nth 0 d 0) t e ls rs lr rr), (ls * (if Z.land t 1 =? 0 then 1 else -1)), lr,
    (rs * (if Z.land t 2 =? 0 then 1 else -1)), rr, e. cbv zeta.
  split; [exact H|]. split; [reflexivity|]. unfold signed_left_scalar, signed_right_scalar. rewrite G1, G2, G3, G4, G5, G6. cbn [rbind].
  do 5 (split; [reflexivity|]). split; [exact H8|]. split; [lia|].
  split; [destruct (Z.land t 1 =? 0); lia|]. destruct H7 as [H7|[H7 H7']]; [left; exact H7|right; split; [rewrite H7; reflexivity|exact H7']].
Qed.
Print Assumptions C31_radical_value.
(** The loader refuses a zero denominator and a vanishing leading term, and
    leaves the number alone. *)
Theorem C31_radical_refused : forall r s d, rad_wf r -> without (spaces ++ s2l "()*") s = rad_text r ->
  length d = 9%nat -> wf_bytes d -> denominator r = 0 \/ left_part r = 0 ->
  radical_load s (Buf true d) = (Buf true d, oerr ValueError).
Proof. intros r s d W T L WD H. destruct (radical_load_spec r s d W T L WD) as [R _]. exact (R H). Qed.
Print Assumptions C31_radical_refused.
Definition rad1 : radical :=
  Radical (Term [] [3] (Some (s2l "sqrt", [5]))) (Some (Term (s2l "-") [1; 2] (Some ([8730], [7])))) (Some (s2l "~", [4])).
Lemma rad1_wf : rad_wf rad1.
Proof.
  assert (D : forall ds, forallb (fun d => (0 <=? d) && (d <? 10)) ds = true -> Forall digit ds).
  { intros ds H. apply Forall_forall. intros x Hx. rewrite forallb_forall in H. apply H in Hx. unfold digit. lia. }
  split; [|split].
  - split; [left; reflexivity|]. split; [apply D; reflexivity|]. split; [now right|]. split; [apply D; reflexivity|discriminate].
  - split; [|split; [discriminate|left; discriminate]]. split; [right; right; left; reflexivity|]. split; [apply D; reflexivity|].
    split; [now left|]. split; [apply D; reflexivity|discriminate].
  - split; [right; right; right; left; reflexivity|]. split; [apply D; reflexivity|]. split; [discriminate|]. intros H. discriminate H.
Qed.
Example C31_example : rad_wf rad1 /\
  without (spaces ++ s2l "()*") (s2l "(3*sqrt(5) - 12" ++ [8730] ++ s2l "7) / ~4") = rad_text rad1 /\
  denominator rad1 = -4 /\ left_part rad1 = -12 /\
  radical_load (s2l "(3*sqrt(5) - 12" ++ [8730] ++ s2l "7) / ~4") (Buf true [28; 0; 1; 0; 0; 1; 0; 0; 1]) =
  (Buf true [28; 32; 4; 0; 48; 18; 0; 80; 7], oret tt).
Proof. split; [exact rad1_wf|]. split; [vm_compute; reflexivity|]. split; [reflexivity|]. split; [reflexivity|]. vm_compute. reflexivity. Qed.

(** C32: a denominator of 1000 is accepted: it is stored as zero and turns the
    sign; so is a scalar of 1000, stored as 0. *)
Theorem C32_out_of_range_refuted : exists s b, s = s2l "sqrt2/1000" /\
  radical_load s (Buf true [28; 0; 1; 0; 0; 1; 0; 0; 1]) = (b, oret tt) /\
  get_denominator b = Ok 0 /\ signed_left_scalar b = Ok (-1) /\ get_right_radicand b = Ok 1.
Proof.
  exists (s2l "sqrt2/1000"), (Buf true [28; 16; 0; 0; 0; 1; 0; 16; 2]). split; [reflexivity|]. repeat split; vm_compute; reflexivity.
Qed.
Print Assumptions C32_out_of_range_refuted.
(** Which values a three-digit field refuses at all: negative ones, and those with more
    than four digits (left fields) or three digits (right fields). *)
Theorem C32_right_refuses : forall v cur, ~ 0 <= v < 1000 -> right_set v cur = Err OverflowError.
Proof.
  intros v cur H. pose proof (bcd_set_refuse (10 * v) 2 ltac:(change (100 ^ Z.of_nat 2) with 10000; lia)) as R.
  unfold bcd_set in R. unfold right_set. destruct (parse_int 16 (str_of_int (10 * v))) as [h|]; cbn [rbind] in *; [now rewrite R|injection R as ->; reflexivity].
Qed.
Theorem C32_left_refuses : forall v cur, ~ 0 <= v < 10000 -> left_set v cur = Err OverflowError.
Proof.
  intros v cur H. pose proof (bcd_set_refuse v 2 ltac:(change (100 ^ Z.of_nat 2) with 10000; lia)) as R.
  unfold bcd_set in R. unfold left_set. destruct (parse_int 16 (str_of_int v)) as [h|]; cbn [rbind] in *; [now rewrite R|injection R as ->; reflexivity].
Qed.
(** What a left field does with four digits: the thousands are added to the other half
    of the byte, and only a sum above 255 is refused. *)
Theorem C32_left_mangles : forall v c0 r, 1000 <= v < 10000 -> is_byte c0 ->
  left_set v (c0 :: r) = let b := 16 * (v / 1000 + c0 / 16) + v / 100 mod 10 in
                         if b <? 256 then Ok [b; 16 * (v / 10 mod 10) + v mod 10] else Err ValueError.
Proof.
  intros v c0 r H B. unfold is_byte in B. pose proof (bcd_set_value v 2 ltac:(change (100 ^ Z.of_nat 2) with 10000; lia)) as R.
  unfold bcd_set in R. unfold left_set. destruct (parse_int 16 (str_of_int v)) as [h|]; cbn [rbind] in *; [|discriminate R].
  rewrite R. cbn [bcd_le rev app rbind]. cbv zeta.
  assert (L : Z.land c0 240 = 16 * (c0 / 16)).
  { change 240 with (Z.shiftl (Z.ones 4) 4).
    apply Z.bits_inj'. intros n N. rewrite Z.land_spec, Z.mul_comm. change 16 with (2 ^ 4). rewrite <- Z.shiftl_mul_pow2, <- Z.shiftr_div_pow2 by lia.
    rewrite !Z.shiftl_spec by lia. destruct (Z.lt_ge_cases n 4) as [N4|N4].
    - rewrite !(fun a => Z.testbit_neg_r a (n - 4) ltac:(lia)). apply andb_false_r.
    - rewrite Z.shiftr_spec by lia. replace (n - 4 + 4) with n by lia. destruct (Z.lt_ge_cases n 8) as [N8|N8].
      + rewrite Z.ones_spec_low by lia. apply andb_true_r.
      + rewrite Z.ones_spec_high by lia. rewrite andb_false_r. symmetry. destruct (Z.eq_dec c0 0) as [->|NZ]; [apply Z.bits_0|].
        apply Z.bits_above_log2; [lia|]. apply Z.log2_lt_pow2; [lia|]. apply Z.lt_le_trans with (2 ^ 8); [change (2 ^ 8) with 256; lia|apply Z.pow_le_mono_r; lia]. }
  rewrite L. assert (Q : 16 * (v / 100 / 10 mod 10) + v / 100 mod 10 + 16 * (c0 / 16) = 16 * (v / 1000 + c0 / 16) + v / 100 mod 10).
  { rewrite Z.div_div by lia. change (100 * 10) with 1000. rewrite (Z.mod_small (v / 1000)) by lia. lia. }
  rewrite Q. clear L Q R. set (b := 16 * (v / 1000 + c0 / 16) + v / 100 mod 10). assert (0 <= b) by (unfold b; lia). clearbody b.
  replace (is_byteb b) with (b <? 256) by (unfold is_byteb; lia). reflexivity.
Qed.
Print Assumptions C32_right_refuses.
Print Assumptions C32_left_refuses.
Print Assumptions C32_left_mangles.
Example C32_example : right_set 2024 [18; 52] = Err OverflowError /\ left_set 1000 [16; 1] = Ok [32; 0] /\ left_set 9999 [112; 0] = Err ValueError /\ exists r, right_set 999 [18; 52] = Ok r /\ r <> [18; 52].
Proof. split; [apply C32_right_refuses; lia|]. split; [vm_compute; reflexivity|]. split; [vm_compute; reflexivity|]. eexists. split; [vm_compute; reflexivity|discriminate]. Qed.

(** C70: multiples of pi.  The coefficient is read like any literal ... *)
Lemma lit_chars l c : lit_wf l -> In c (lit_text l) -> In c (s2l "+-~.eE|") \/ 48 <= c <= 57.
Proof.
  intros (HS & HI & HF & _ & HE) I. unfold lit_text in I.
  assert (SG : forall s, is_sign s -> In c s -> In c (s2l "+-~.eE|")).
  { intros s [<-|[<-|[<-|[<-|[]]]]] J; cbn in J |- *; intuition. }
  apply in_app_or in I as [I|I]; [left; eauto|]. apply in_app_or in I as [I|I]; [right; now apply text_in in I|].
  apply in_app_or in I as [I|I].
  - unfold frac_digits in HF. destruct (l_frac l) as [f|]; [|destruct I]. apply in_app_or in I as [I|I]; [left; cbn in I |- *; intuition|right; now apply text_in in I].
  - destruct (l_exp l) as [[[m s] ds]|]; [|destruct I]. destruct HE as (HM & HS2 & HD & _).
    apply in_app_or in I as [I|I]; [left; destruct HM as [<-|[<-|[<-|[<-|[]]]]]; cbn in I |- *; intuition|].
    apply in_app_or in I as [I|I]; [left; eauto|right; now apply text_in in I].
Qed.
Theorem C70_pi_literal : forall l b, lit_wf l -> real_pi_load (lit_text l ++ [960]) b = real_load (lit_text l) b.
Proof.
  intros l b W. assert (NC : forall c, ~ In c (s2l "+-~.eE|") -> (c < 48 \/ 57 < c) -> ~ In c (lit_text l)).
  { intros c H1 H2 I. apply (lit_chars l c W) in I as [I|I]; [contradiction|lia]. }
  assert (N1 : ~ In 112 (lit_text l ++ [960])) by (apply in_app3; [apply NC; [vm_compute; intuition lia|lia]|cbn; lia]).
  assert (N2 : ~ In 42 (lit_text l ++ [960])) by (apply in_app3; [apply NC; [vm_compute; intuition lia|lia]|cbn; lia]).
  assert (N3 : ~ In 960 (lit_text l)) by (apply NC; [vm_compute; intuition lia|lia]).
  unfold real_pi_load, replacer. cbn [fold_left fst snd]. change (s2l "pi") with (112 :: [105]). change (s2l "*") with (42 :: []).
  rewrite (str_replace_none 112) by auto. rewrite (str_replace_none 42) by auto.
  replace (memb 960 _) with true by (symmetry; apply memb_spec; apply in_or_app; right; now left).
  f_equal. unfold strip. destruct (@exists_last _ (lit_text l ++ [960])) as (q & x & Q); [destruct (lit_text l); discriminate|].
  destruct (lit_text l) as [|c t] eqn:LT; [reflexivity|].
  rewrite lstrip_id. 2:{ intros c' r' E. injection E as <- _. intros [H|[]]. apply N3. left. now symmetry. }
  rewrite rstrip_app by (repeat constructor).
  destruct (@exists_last _ (c :: t)) as (q' & x' & Q'); [discriminate|]. rewrite Q'. apply rstrip_snoc_id.
  intros [H|[]]. apply N3. rewrite Q'. apply in_or_app. right. left. now symmetry.
Qed.
Print Assumptions C70_pi_literal.
(** ... but the bare constant is stored as zero. *)
Theorem C70_bare_pi_refuted : exists d', real_pi_load [960] (Buf true [32; 128; 16; 0; 0; 0; 0; 0; 0]) = (Buf true d', oret tt) /\
  real_decimal (Buf true d') = Ok (Dec false 0 (-13)).
Proof. exists [32; 128; 0; 0; 0; 0; 0; 0; 0]. split; vm_compute; reflexivity. Qed.
Print Assumptions C70_bare_pi_refuted.
Example C70_example : real_pi_load (s2l "-2.5" ++ [960]) (Buf true [32; 128; 16; 0; 0; 0; 0; 0; 0]) =
  (Buf true [160; 128; 37; 0; 0; 0; 0; 0; 0], oret tt).
Proof. vm_compute. reflexivity. Qed.

(** C73: which radicals of the documented form (a sqrt b + c sqrt d)/e, with
    components below 1000, load.  Besides a zero denominator the loader refuses
    a vanishing leading term, a sum of two integers without a root, and any
    signed denominator under a single root. *)
Theorem C73_accepted_iff : forall r s d, rad_form r -> without (spaces ++ s2l "()*") s = rad_text r ->
  length d = 9%nat -> wf_bytes d ->
  Z.abs (scalar (r_fst r)) < 1000 -> radicand (r_fst r) < 1000 -> Z.abs (scalar2 r) < 1000 -> radicand2 r < 1000 ->
  Z.abs (denominator r) < 1000 ->
  (radicand (r_fst r) = radicand2 r -> Z.abs (scalar (r_fst r) + scalar2 r) < 1000) ->
  ((exists b, radical_load s (Buf true d) = (b, oret tt)) <->
   denominator r <> 0 /\ left_part r <> 0 /\ ~ rootless_sum r /\ ~ signed_below_root r).
Proof.
  intros r s d W T L WD b1 b2 b3 b4 b5 b6. assert (NE : s <> []) by (apply (rad_text_nonempty r); [apply W|exact T]).
  split.
  - intros [b E].
    assert (N1 : ~ rootless_sum r) by (intros X; pose proof (refuse_rootless_sum r s W X T) as P; rewrite (radical_load_refused s _ NE P) in E; discriminate E).
    assert (N2 : ~ signed_below_root r) by (intros X; pose proof (refuse_signed_below_root r s W X T) as P; rewrite (radical_load_refused s _ NE P) in E; discriminate E).
    pose proof (rad_form_wf r W N1 N2) as WF. pose proof (C31_radical_refused r s d WF T L WD) as RF.
    split; [intros X; rewrite RF in E by auto; discriminate E|]. split; [intros X; rewrite RF in E by auto; discriminate E|]. now split.
  - intros (E0 & L0 & N1 & N2). pose proof (rad_form_wf r W N1 N2) as WF.
    destruct (C31_radical_value r s d WF T L WD E0 L0 b1 b2 b3 b4 b5 b6) as (d' & ls & lr & rs & rr & e & H & _).
    eexists. exact H.
Qed.
Print Assumptions C73_accepted_iff.
(** A refusal is a ValueError and leaves the number alone, whatever the size of
    the components. *)
Theorem C73_refused : forall r s d, rad_form r -> without (spaces ++ s2l "()*") s = rad_text r -> length d = 9%nat -> wf_bytes d ->
  denominator r = 0 \/ left_part r = 0 \/ rootless_sum r \/ signed_below_root r ->
  radical_load s (Buf true d) = (Buf true d, oerr ValueError).
Proof.
  intros r s d W T L WD H. assert (NE : s <> []) by (apply (rad_text_nonempty r); [apply W|exact T]).
  assert (D1 : rootless_sum r \/ ~ rootless_sum r).
  { unfold rootless_sum. destruct (r_snd r) as [t|]; [|right; intros (t & X & _); discriminate X].
    destruct (t_rad (r_fst r)) eqn:R1; [right; intros (u & _ & X & _); discriminate X|].
    destruct (t_rad t) eqn:R2; [right; intros (u & X & _ & Y); injection X as ->; congruence|left; now exists t]. }
  assert (D2 : signed_below_root r \/ ~ signed_below_root r).
  { unfold signed_below_root. destruct (r_snd r); [right; intros (X & _); discriminate X|].
    destruct (t_rad (r_fst r)) eqn:R1; [|right; intros (_ & X & _); congruence].
    destruct (r_den r) as [[[|c s0] ds]|]; [right; intros (_ & _ & u & v & X & Y); injection X as <- <-; congruence| |right; intros (_ & _ & u & v & X & _); discriminate X].
    left. split; auto. split; [discriminate|]. exists (c :: s0), ds. split; [reflexivity|discriminate]. }
  destruct D1 as [D1|D1]; [apply radical_load_refused; auto; now apply (refuse_rootless_sum r)|].
  destruct D2 as [D2|D2]; [apply radical_load_refused; auto; now apply (refuse_signed_below_root r)|].
  apply (C31_radical_refused r); auto; [now apply rad_form_wf|tauto].
Qed.
Print Assumptions C73_refused.
Definition rad3 : radical := Radical (Term [] [] (Some (s2l "sqrt", [2]))) None (Some (s2l "-", [3])).
Definition rad4 : radical := Radical (Term [] [3] None) (Some (Term (s2l "+") [4] None)) None.
Example C73_example : rad_form rad3 /\ signed_below_root rad3 /\ rad_text rad3 = s2l "sqrt2/-3" /\
  radical_load (s2l "sqrt2/-3") (Buf true slot0) = (Buf true slot0, oerr ValueError) /\
  rad_form rad4 /\ rootless_sum rad4 /\ rad_text rad4 = s2l "3+4" /\
  radical_load (s2l "3+4") (Buf true slot0) = (Buf true slot0, oerr ValueError) /\
  radical_load (s2l "0sqrt5+3sqrt2") (Buf true slot0) = (Buf true slot0, oerr ValueError) /\
  rad_form rad1 /\ left_part rad1 <> 0 /\ ~ rootless_sum rad1 /\ ~ signed_below_root rad1.
Proof.
  assert (D : forall ds, forallb (fun d => (0 <=? d) && (d <? 10)) ds = true -> Forall digit ds).
  { intros ds H. apply Forall_forall. intros x Hx. rewrite forallb_forall in H. apply H in Hx. unfold digit. lia. }
  split.
  { split; [|split; [exact I|]].
    - split; [left; reflexivity|]. split; [apply D; reflexivity|]. split; [now right|]. split; [apply D; reflexivity|discriminate].
    - split; [right; right; left; reflexivity|]. split; [apply D; reflexivity|discriminate]. }
  split; [split; [reflexivity|split; [discriminate|exists (s2l "-"), [3]; split; [reflexivity|discriminate]]]|].
  split; [reflexivity|]. split; [vm_compute; reflexivity|]. split.
  { split; [|split; [|exact I]].
    - split; [left; reflexivity|]. split; [apply D; reflexivity|discriminate].
    - split; [|discriminate]. split; [right; left; reflexivity|]. split; [apply D; reflexivity|discriminate]. }
  split; [eexists; split; [reflexivity|split; reflexivity]|]. split; [reflexivity|]. split; [vm_compute; reflexivity|]. split; [vm_compute; reflexivity|].
  split; [apply rad_wf_form, rad1_wf|]. split; [discriminate|].
  split; [intros (t & _ & X & _); discriminate X|intros (X & _); discriminate X].
Qed.
Definition rad2 : radical :=
  Radical (Term [] [0] (Some (s2l "sqrt", [5]))) (Some (Term (s2l "+") [3] (Some (s2l "sqrt", [2])))) None.
Theorem C73_valid_radicals_refuted : exists r, rad_wf r /\ denominator r <> 0 /\
  Z.abs (scalar (r_fst r)) < 1000 /\ radicand (r_fst r) < 1000 /\ Z.abs (scalar2 r) < 1000 /\ radicand2 r < 1000 /\
  Z.abs (denominator r) < 1000 /\ scalar2 r <> 0 /\
  forall b, radical_load (rad_text r) b = (b, oerr ValueError).
Proof.
  exists rad2. split; [|do 7 (split; [vm_compute; (reflexivity || discriminate)|]); intros b; reflexivity].
  assert (D : forall ds, forallb (fun d => (0 <=? d) && (d <? 10)) ds = true -> Forall digit ds).
  { intros ds H. apply Forall_forall. intros x Hx. rewrite forallb_forall in H. apply H in Hx. unfold digit. lia. }
  split; [|split].
  - split; [left; reflexivity|]. split; [apply D; reflexivity|]. split; [now right|]. split; [apply D; reflexivity|discriminate].
  - split; [|split; [discriminate|left; discriminate]]. split; [right; left; reflexivity|]. split; [apply D; reflexivity|].
    split; [now right|]. split; [apply D; reflexivity|discriminate].
  - exact I.
Qed.
Print Assumptions C73_valid_radicals_refuted.

(** C74: a multiple of pi prints as its coefficient followed by the pi sign and
    reads back exactly when the coefficient does; zero does not read back. *)
Theorem C74_pi_string_roundtrip_iff : forall low neg x m d d0, 0 <= low < 128 -> payload low neg x m d -> is_byte x ->
  10 ^ 13 <= m < 10 ^ 14 -> length d0 = 9%nat -> wf_bytes d0 ->
  exists s, real_pi_string (Buf true d) = Ok (s ++ [960]) /\ real_string (Buf true d) = Ok s /\
    ((exists d', real_pi_load (s ++ [960]) (Buf true d0) = (Buf true d', oret tt) /\ payload (nth 0 d0 0 mod 128) neg x m d') <->
     (x < 127 -> m mod 10 ^ (127 - x) = 0)).
Proof.
  intros low neg x m d d0 HL P X M L0 W0. destruct (C27_string_roundtrip_iff low neg x m d d0 HL P X M L0 W0) as (s & S & R).
  apply payload_stored in P; auto; [|lia].
  destruct (real_string_stored low neg x m) as (l & W & _ & S' & _); auto; [unfold is_byte; lia|lia|].
  assert (PB : Buf true d = stored low neg x m) by (rewrite P; reflexivity).
  rewrite <- PB, S in S'. injection S' as ->.
  exists (lit_text l). split; [|split; [exact S|]].
  - unfold real_pi_string. unfold real_string in S. destruct (real_decimal (Buf true d)) as [q|] eqn:Q; [|discriminate S].
    cbn [rbind] in S |- *. destruct (d_coef q =? 0) eqn:Z0; [|injection S as S; f_equal; f_equal; exact S].
    exfalso. rewrite PB in Q. pose proof (real_decimal_stored low neg x m) as D. rewrite D in Q by (unfold is_byte in *; lia).
    injection Q as <-. cbn [d_coef] in Z0. lia.
  - rewrite C70_pi_literal by exact W. exact R.
Qed.
Print Assumptions C74_pi_string_roundtrip_iff.
Theorem C74_pi_zero_refuted : exists d s, length d = 9%nat /\ wf_bytes d /\ real_pi_string (Buf true d) = Ok s /\
  forall b, real_pi_load s b = (b, oerr ValueError).
Proof.
  exists [32; 128; 0; 0; 0; 0; 0; 0; 0], (s2l "0"). split; [reflexivity|]. split; [wf9|]. split; [vm_compute; reflexivity|]. reflexivity.
Qed.
Print Assumptions C74_pi_zero_refuted.
Example C74_example : payload 32 true 128 37000000000000 [160; 128; 55; 0; 0; 0; 0; 0; 0] /\
  real_pi_string (Buf true [160; 128; 55; 0; 0; 0; 0; 0; 0]) = Ok (s2l "-3.7" ++ [960]).
Proof.
  split; [|vm_compute; reflexivity]. split; [reflexivity|]. split; [reflexivity|]. split; [reflexivity|]. intros i H.
  do 7 (destruct i as [|i]; [reflexivity|]). lia.
Qed.
