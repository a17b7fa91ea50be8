(** Property theorems C01-C07: sections, views, bit fields, integers, text,
    flags, packed decimal. *)
From Verif Require Import L_Base M_Data M_Numeric M_Flags S_Data L_Data L_Flags.

(** C01: whatever the converter produced, the stored bytes have exactly the
    declared width, with a warning exactly when something was cut; if the
    converter raises nothing is stored. *)
Theorem C01_section_width : forall n ws v, exists s,
  section_set_raw (Some n) (ws, Ok v) = (ws ++ (if Nat.ltb n (length v) then [WTooWide] else []), Ok s) /\
  fitted n v s.
Proof.
  intros n ws v. destruct (fit_section_fitted n v) as (s & E & F). exists s. split; auto.
  unfold section_set_raw, obind. now rewrite E.
Qed.
Print Assumptions C01_section_width.
Theorem C01_section_raise : forall n ws e,
  section_set_raw (Some n) (ws, Err e) = (ws, Err e).
Proof. reflexivity. Qed.
Print Assumptions C01_section_raise.
Theorem C01_spec_deterministic : forall n v s s', fitted n v s -> fitted n v s' -> s = s'.
Proof. exact fitted_unique. Qed.
Print Assumptions C01_spec_deterministic.
Example C01_example :
  section_set_raw (Some 4%nat) (oret [1; 2]) = ([], Ok [1; 2; 0; 0]) /\
  section_set_raw (Some 2%nat) (oret [1; 2; 3]) = ([WTooWide], Ok [1; 2]).
Proof. split; reflexivity. Qed.

(** C02: a view write of the right width replaces exactly the covered bytes
    and reads back. *)
Theorem C02_view_frame : forall target vw l lo hi v,
  resolves (v_start vw) (v_stop vw) (zlen l) lo hi -> target = None \/ target = Some (zlen l) ->
  zlen v = hi - lo ->
  exists l', view_set target vw (oret v) (Buf true l) = ([], Ok (Buf true l')) /\
             patched l lo hi v l' /\ view_get vw (Buf true l') = v.
Proof. exact view_set_frame. Qed.
Print Assumptions C02_view_frame.
(** A bounded view never writes outside its slice, whatever the width of the
    value: the value is cut or padded first. *)
Theorem C02_view_never_spills : forall target vw l lo hi v,
  resolves (v_start vw) (v_stop vw) (zlen l) lo hi -> target = None \/ target = Some (zlen l) ->
  view_length target vw <> None ->
  exists x l', view_set target vw (oret v) (Buf true l) =
               ((if hi - lo <? zlen v then [WTooWide] else []), Ok (Buf true l')) /\
             fitted (Z.to_nat (hi - lo)) v x /\ patched l lo hi x l'.
Proof. exact view_set_fits. Qed.
Print Assumptions C02_view_never_spills.
Theorem C02_views_commute : forall target v1 v2 l a b c d x y,
  resolves (v_start v1) (v_stop v1) (zlen l) a b -> resolves (v_start v2) (v_stop v2) (zlen l) c d ->
  target = None \/ target = Some (zlen l) ->
  zlen x = b - a -> zlen y = d - c -> b <= c \/ d <= a ->
  exists r, obind (view_set target v1 (oret x) (Buf true l)) (view_set target v2 (oret y)) = ([], Ok r) /\
            obind (view_set target v2 (oret y) (Buf true l)) (view_set target v1 (oret x)) = ([], Ok r) /\
            view_get v1 r = x /\ view_get v2 r = y.
Proof. exact view_set_commute. Qed.
Print Assumptions C02_views_commute.
Example C02_example :
  let l := [10; 11; 12; 13; 14] in
  let a := View (Some 1) (Some 3) in
  let b := View (Some (-2)) (Some (-1)) in
  resolves (v_start a) (v_stop a) (zlen l) 1 3 /\ resolves (v_start b) (v_stop b) (zlen l) 3 4 /\
  view_set None a (oret [7; 8]) (Buf true l) = ([], Ok (Buf true [10; 7; 8; 13; 14])) /\
  view_set None b (oret [9]) (Buf true l) = ([], Ok (Buf true [10; 11; 12; 9; 14])).
Proof. unfold resolves, zlen. cbn -[Z.of_nat]. repeat split; try reflexivity; lia. Qed.

(** C03: bit fields. *)
Theorem C03_bits_set : forall a b v c, (a <= b <= 8)%nat -> is_byte c ->
  exists ws r, bits_set a b v (Some [c]) = (ws, Ok [r]) /\ field_written a b v c r /\
    (ws = [] <-> v mod 256 < 2 ^ Z.of_nat (b - a)) /\ Forall (eq WTooManyBits) ws.
Proof. exact bits_set_spec. Qed.
Print Assumptions C03_bits_set.
Theorem C03_bits_get_after_set : forall a b v c r, (a < b <= 8)%nat -> field_written a b v c r ->
  bits_get a b [r] = Ok (v mod 2 ^ Z.of_nat (b - a)).
Proof. exact bits_get_written. Qed.
Print Assumptions C03_bits_get_after_set.
Theorem C03_written_unique : forall a b v c r s, field_written a b v c r -> field_written a b v c s -> r = s.
Proof.
  intros a b v c r s [H1 H2] [H3 H4]. apply byte_ext; auto. intros i Hi. now rewrite H2, H4.
Qed.
Print Assumptions C03_written_unique.
Example C03_example :
  bits_set 0 6 12 (Some [192]) = ([], Ok [204]) /\ bits_get 0 6 [204] = Ok 12 /\
  bits_set 6 7 2 (Some [128]) = ([WTooManyBits], Ok [128]) /\ bits_set 0 8 (-1) None = ([], Ok [255]).
Proof. repeat split; reflexivity. Qed.

(** C04: integer fields. *)
Theorem C04_integer_exact : forall n v, 0 <= v < 256 ^ Z.of_nat n ->
  exists d, integer_set v (Some n) = Ok d /\ integer_get d = v /\ length d = n /\ wf_bytes d.
Proof.
  intros n v H. destruct (integer_accept n v H) as [d E]. exists d. split; auto.
  now apply integer_roundtrip in E.
Qed.
Print Assumptions C04_integer_exact.
Theorem C04_integer_refuses : forall n v,
  integer_set v (Some n) = Err OverflowError <-> ~ (0 <= v < 256 ^ Z.of_nat n).
Proof. exact integer_refuse. Qed.
Print Assumptions C04_integer_refuses.
Theorem C04_integer_get_injective : forall d d', wf_bytes d -> wf_bytes d' -> length d = length d' ->
  integer_get d = integer_get d' -> d = d'.
Proof.
  intros d d' H1 H2 H3 H4. unfold integer_get in H4.
  rewrite <- (le_bytes_le_int d), <- (le_bytes_le_int d') by auto. congruence.
Qed.
Print Assumptions C04_integer_get_injective.
(** A converter called without a length uses two bytes (data.py:200-215). *)
Theorem C04_default_width : forall v, 0 <= v < 65536 ->
  exists d, integer_set v None = Ok d /\ integer_get d = v /\ length d = 2%nat /\ wf_bytes d.
Proof. intros v H. exact (C04_integer_exact 2 v H). Qed.
Print Assumptions C04_default_width.
(** Boolean bytes: a flag reads back as written, any non-zero byte is true. *)
Theorem C04_boolean : forall v c, (length (boolean_set v) = 1%nat /\ boolean_get (boolean_set v) = v) /\
  (boolean_get [c] = true <-> c <> 0) /\ (boolean_set true = [128] /\ boolean_set false = [0]).
Proof.
  intros v c. split; [destruct v; split; reflexivity|]. split; [|split; reflexivity].
  unfold boolean_get. cbn [leqb]. destruct (c =? 0) eqn:E; cbn; split; intros; try lia; try discriminate; auto.
Qed.
Print Assumptions C04_boolean.
Example C04_example : integer_set 515 (Some 2%nat) = Ok [3; 2] /\ integer_set 65536 None = Err OverflowError.
Proof. split; reflexivity. Qed.

(** C05: text sections. *)
Theorem C05_text_roundtrip : forall n s, wf_bytes s -> (length s <= n)%nat -> last s 1 <> 0 ->
  exists d, section_set_raw (Some n) (olift (string_set s)) = ([], Ok d) /\ length d = n /\ string_get d = s.
Proof. exact string_section_roundtrip. Qed.
Print Assumptions C05_text_roundtrip.
Theorem C05_text_rejects_non_latin1 : forall n s, ~ wf_bytes s ->
  section_set_raw (Some n) (olift (string_set s)) = ([], Err UnicodeEncodeError).
Proof. intros n s H. unfold section_set_raw, string_set. now rewrite latin1_err. Qed.
Print Assumptions C05_text_rejects_non_latin1.
Theorem C05_text_cut : forall n s, wf_bytes s -> (n < length s)%nat ->
  section_set_raw (Some n) (olift (string_set s)) = ([WTooWide], Ok (firstn n s)).
Proof. exact string_section_cut. Qed.
Print Assumptions C05_text_cut.
(** The condition on a trailing NUL is needed. *)
Theorem C05_text_trailing_nul_refuted : exists n s d, wf_bytes s /\ (length s <= n)%nat /\
  section_set_raw (Some n) (olift (string_set s)) = ([], Ok d) /\ string_get d <> s.
Proof.
  exists 4%nat, [65; 0], [65; 0; 0; 0]. split; [apply wf_bytesb_spec; reflexivity|].
  split; [simpl; lia|]. split; [reflexivity|discriminate].
Qed.
Print Assumptions C05_text_trailing_nul_refuted.
Example C05_example :
  section_set_raw (Some 8%nat) (olift (string_set (s2l "**TI83F*"))) = ([], Ok [42; 42; 84; 73; 56; 51; 70; 42]) /\
  section_set_raw (Some 2%nat) (olift (string_set [960])) = ([], Err UnicodeEncodeError).
Proof. split; reflexivity. Qed.

(** C06: flags. *)
Theorem C06_flags_byte_roundtrip : forall b, is_byte b -> flags_set (flags_get [b]) = Ok [b].
Proof.
  intros b H. rewrite flags_roundtrip by (constructor; [auto|constructor]). f_equal. now apply rstrip0_single.
Qed.
Print Assumptions C06_flags_byte_roundtrip.
Theorem C06_flags_update : forall b g, is_byte b -> Forall bit_key g -> Forall bit_val g ->
  exists r, flags_set (flags_ior (flags_get [b]) g) = Ok [r] /\ is_byte r /\
    forall i, (i < 8)%nat -> Z.testbit r (Z.of_nat i) = last_assigned g (Z.of_nat i) (Z.testbit b (Z.of_nat i)).
Proof. exact flags_update. Qed.
Print Assumptions C06_flags_update.
Theorem C06_flags_contains : forall b g, is_byte b -> Forall bit_key g ->
  exists r, flags_contains (flags_get [b]) g = Ok r /\
    (r = true <-> forall k v, In (k, v) g -> Z.testbit b k = negb (v =? 0)).
Proof. exact flags_contains_spec. Qed.
Print Assumptions C06_flags_contains.
(** Exact law for wider flag data: trailing (most significant) zero bytes are
    dropped. *)
Theorem C06_flags_wide : forall d, wf_bytes d ->
  flags_set (flags_get d) = Ok (match rstrip0 d with [] => [0] | e => e end).
Proof. exact flags_roundtrip. Qed.
Print Assumptions C06_flags_wide.
Theorem C06_flags_width_refuted : exists d, wf_bytes d /\ flags_set (flags_get d) <> Ok d.
Proof. exists [1; 0]. split; [apply wf_bytesb_spec; reflexivity|vm_compute; discriminate]. Qed.
Print Assumptions C06_flags_width_refuted.
Example C06_example :
  flags_set (flags_ior (flags_get [5]) [(1, 1); (2, 0)]) = Ok [3] /\
  flags_contains (flags_get [5]) [(0, 1); (1, 0)] = Ok true /\
  flags_contains (flags_get [5]) [(1, 1)] = Ok false /\
  flags_set (flags_get [3; 1]) = Ok [3; 1].
Proof. repeat split; reflexivity. Qed.

(** C07: packed decimal. *)
Theorem C07_bcd_exact : forall n v, 0 <= v < 100 ^ Z.of_nat n ->
  exists d, bcd_set v (Some n) = Ok d /\ bcd_get d = v /\ length d = n /\ wf_bytes d /\ packed_decimal v d.
Proof.
  intros n v H. exists (rev (bcd_le n v)). rewrite bcd_set_value by auto.
  repeat split; auto using bcd_get_bcd_le.
  - now rewrite rev_length, bcd_le_length.
  - apply wf_rev, bcd_le_wf.
  - apply (bcd_le_packed n v); [reflexivity|lia].
Qed.
Print Assumptions C07_bcd_exact.
Theorem C07_bcd_refuses : forall n v, ~ (0 <= v < 100 ^ Z.of_nat n) -> bcd_set v (Some n) = Err OverflowError.
Proof. intros n v. apply bcd_set_refuse. Qed.
Print Assumptions C07_bcd_refuses.
Theorem C07_bcd_rewrite : forall d, wf_bytes d ->
  (bcd_set (bcd_get d) (Some (length d)) = Ok d <-> Forall decimal_byte d).
Proof.
  intros d Hw. split; [now apply bcd_rewrite_inv|apply bcd_rewrite].
Qed.
Print Assumptions C07_bcd_rewrite.
Example C07_example :
  bcd_set 1234567 (Some 7%nat) = Ok [0; 0; 0; 1; 35; 69; 103] /\
  bcd_get [0; 0; 0; 1; 35; 69; 103] = 1234567 /\
  bcd_set 10000 (Some 2%nat) = Err OverflowError /\ bcd_set (-3) (Some 2%nat) = Err OverflowError /\
  bcd_set (bcd_get [171]) (Some 1%nat) <> Ok [171].
Proof. repeat split; try reflexivity. vm_compute. discriminate. Qed.

(** C78: enumerated fields. *)
Theorem C78_enum : forall all v, is_byte v ->
  snd (enum_set all v) = Ok [v] /\ enum_get [v] = Ok v /\ (fst (enum_set all v) = [] <-> In v all).
Proof.
  intros all v H. unfold enum_set, owarn_if, byte_of.
  replace (is_byteb v) with true by (symmetry; unfold is_byteb, is_byte in *; lia).
  destruct (memb v all) eqn:M; cbn; (split; [reflexivity|]); (split; [reflexivity|]).
  - split; auto. intros _. apply existsb_exists in M as (x & I & E). now apply Z.eqb_eq in E as ->.
  - split; [discriminate|]. intros I. exfalso.
    assert (memb v all = true) by (apply existsb_exists; exists v; split; [auto|apply Z.eqb_refl]). congruence.
Qed.
Print Assumptions C78_enum.
Theorem C78_enum_refuses : forall all v, ~ is_byte v -> snd (enum_set all v) = Err ValueError.
Proof.
  intros all v H. unfold enum_set, owarn_if, byte_of.
  replace (is_byteb v) with false by (symmetry; unfold is_byteb, is_byte in *; lia). now destruct (memb v all).
Qed.
Print Assumptions C78_enum_refuses.
Example C78_example : enum_set [0; 1; 9] 9 = ([], Ok [9]) /\ enum_set [0; 1; 9] 8 = ([WEnum], Ok [8]) /\ snd (enum_set [0] 256) = Err ValueError.
Proof. repeat split; reflexivity. Qed.

(** C79: reading a one-byte field (bits, enumeration, left-nibble) of a buffer
    that is too short raises ValueError; other outcomes are passed on. *)
Theorem C79_short_read : forall a b, section_get (bits_get a b []) = Err ValueError /\ section_get (enum_get []) = Err ValueError.
Proof. intros; split; reflexivity. Qed.
Print Assumptions C79_short_read.
Theorem C79_passes : forall A (r : result A), r <> Err IndexError -> section_get r = r.
Proof. intros A [x|[]] H; auto. congruence. Qed.
Print Assumptions C79_passes.
Theorem C79_never_index_error : forall A (r : result A), section_get r <> Err IndexError.
Proof. intros A [x|[]]; discriminate. Qed.
Print Assumptions C79_never_index_error.
Example C79_example : section_get (bits_get 0 6 (view_get (View (Some 0) (Some 1)) (Buf true []))) = Err ValueError /\
  section_get (bits_get 0 6 (view_get (View (Some 0) (Some 1)) (Buf true [140]))) = Ok 12.
Proof. split; reflexivity. Qed.
