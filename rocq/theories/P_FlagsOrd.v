(** Property C151: comparing flags. *)
From Verif Require Import L_Base M_Data M_Flags M_FlagsOrd S_Data L_Data L_Flags.

(** [<] and [>] compare the values of the bytes. *)
Lemma flags_value d : wf_bytes d -> flags_int (flags_get d) = Ok (le_int d).
Proof.
  intros W. pose proof (Z.log2_nonneg (le_int d)) as L. pose proof (le_int_nonneg d W) as N.
  set (k := Z.to_nat (Z.log2 (le_int d) / 8 + 1)).
  assert (K : Z.of_nat k = Z.log2 (le_int d) / 8 + 1) by (subst k; lia).
  rewrite (flags_get_mkf d k W K), flags_int_mkf.
  - rewrite bits_int_lsb_bits. f_equal. apply Z.mod_small. split; [exact N|].
    destruct (Z.eq_dec (le_int d) 0) as [->|NZ]; [apply Z.pow_pos_nonneg; lia|].
    apply Z.log2_lt_pow2; [lia|]. rewrite Nat2Z.inj_mul, K. clear - L. lia.
  - intros E. apply (f_equal (@length Z)) in E. rewrite lsb_bits_length in E. cbn [length] in E. lia.
  - apply lsb_bits_bits.
Qed.
Theorem C151_strict : forall d d', wf_bytes d -> wf_bytes d' ->
  flags_compare Gt (flags_get d) (flags_get d') = Ok (le_int d' <? le_int d) /\
  flags_compare Lt (flags_get d) (flags_get d') = Ok (le_int d <? le_int d').
Proof.
  intros d d' W W'. unfold flags_compare. cbn [cmp_method mirror]. unfold flags_gt.
  rewrite !flags_value by assumption. now split.
Qed.
(** Equality. *)
Lemma dict_eq_mkf v w : dict_eq (mkf 0 v) (mkf 0 w) = true <-> v = w.
Proof.
  unfold dict_eq. rewrite !mkf_length, andb_true_iff, Nat.eqb_eq, forallb_forall. split.
  - intros (L & F). apply (nth_ext _ _ 0 0 L). intros i I.
    assert (X : In (Z.of_nat i, nth i v 0) (mkf 0 v)).
    { unfold mkf. replace (Z.of_nat i, nth i v 0) with (nth i (combine (map Z.of_nat (seq 0 (length v))) v) (Z.of_nat 0, 0)).
      - apply nth_In. rewrite combine_length, map_length, seq_length. lia.
      - rewrite combine_nth by (now rewrite map_length, seq_length). rewrite map_nth, seq_nth by exact I. reflexivity. }
    apply F in X. cbn [fst snd] in X. change (Z.of_nat i) with (Z.of_nat (0 + i)) in X. rewrite (dget_mkf 0 w i) in X by lia. apply Z.eqb_eq in X. now symmetry.
  - intros <-. split; [reflexivity|]. intros (k, x) I. cbn [fst snd]. unfold mkf in I.
    apply (In_nth _ _ (Z.of_nat 0, 0)) in I as (i & L & E). rewrite combine_length, map_length, seq_length, Nat.min_id in L.
    rewrite combine_nth in E by (now rewrite map_length, seq_length). rewrite map_nth, seq_nth in E by exact L.
    injection E as <- <-. change (Z.of_nat i) with (Z.of_nat (0 + i)). rewrite (dget_mkf 0 v i) by exact L. apply Z.eqb_refl.
Qed.
Theorem C151_equal : forall d d', wf_bytes d -> wf_bytes d' ->
  dict_eq (flags_get d) (flags_get d') = (le_int d =? le_int d').
Proof.
  intros d d' W W'. destruct (Z.eqb_spec (le_int d) (le_int d')) as [E|N].
  - pose proof (Z.log2_nonneg (le_int d)) as L. set (k := Z.to_nat (Z.log2 (le_int d) / 8 + 1)).
    assert (K : Z.of_nat k = Z.log2 (le_int d) / 8 + 1) by (subst k; lia).
    rewrite (flags_get_mkf d k W K), (flags_get_mkf d' k W') by (rewrite <- E; exact K).
    apply dict_eq_mkf. now rewrite E.
  - destruct (dict_eq _ _) eqn:D; [exfalso|reflexivity]. apply N. clear N.
    pose proof (Z.log2_nonneg (le_int d)) as L. pose proof (Z.log2_nonneg (le_int d')) as L'.
    set (k := Z.to_nat (Z.log2 (le_int d) / 8 + 1)). set (k' := Z.to_nat (Z.log2 (le_int d') / 8 + 1)).
    assert (K : Z.of_nat k = Z.log2 (le_int d) / 8 + 1) by (subst k; lia).
    assert (K' : Z.of_nat k' = Z.log2 (le_int d') / 8 + 1) by (subst k'; lia).
    pose proof (flags_value d W) as V. pose proof (flags_value d' W') as V'.
    rewrite (flags_get_mkf d k W K) in D, V. rewrite (flags_get_mkf d' k' W' K') in D, V'.
    apply dict_eq_mkf in D. rewrite D, V' in V. congruence.
Qed.
(** So flags read from bytes are below, equal to or above one another, by value. *)
Theorem C151_trichotomy : forall d d', wf_bytes d -> wf_bytes d' ->
  exists lt eq gt, flags_compare Lt (flags_get d) (flags_get d') = Ok lt /\ dict_eq (flags_get d) (flags_get d') = eq /\
    flags_compare Gt (flags_get d) (flags_get d') = Ok gt /\
    Z.b2z lt + Z.b2z eq + Z.b2z gt = 1.
Proof.
  intros d d' W W'. destruct (C151_strict d d' W W') as (G & L). exists (le_int d <? le_int d'), (le_int d =? le_int d'), (le_int d' <? le_int d).
  rewrite G, L, C151_equal by assumption. repeat split.
  destruct (Z.ltb_spec (le_int d) (le_int d')), (Z.eqb_spec (le_int d) (le_int d')), (Z.ltb_spec (le_int d') (le_int d)); cbn; lia.
Qed.
(** But they cannot be compared with [<=] or [>=]. *)
Theorem C151_no_le : forall f g, flags_compare Le f g = Err TypeError /\ flags_compare Ge f g = Err TypeError.
Proof. intros f g. split; reflexivity. Qed.
Theorem C151_refuted : exists d d', wf_bytes d /\ wf_bytes d' /\ flags_compare Lt (flags_get d) (flags_get d') = Ok true /\
  flags_compare Le (flags_get d) (flags_get d') <> Ok true.
Proof. exists [1], [2]. repeat split; try (vm_compute; reflexivity); try (repeat constructor; unfold is_byte; lia). discriminate. Qed.
(** Flags of different widths may be neither below, equal nor above one another. *)
Theorem C151_width_refuted : exists f g, f = flags_init None 8 /\ g = flags_init None 16 /\
  flags_compare Lt f g = Ok false /\ dict_eq f g = false /\ flags_compare Gt f g = Ok false.
Proof. do 2 eexists. split; [reflexivity|]. split; [reflexivity|]. repeat split; vm_compute; reflexivity. Qed.
Print Assumptions C151_strict.
Print Assumptions C151_equal.
Print Assumptions C151_trichotomy.
Print Assumptions C151_no_le.
Print Assumptions C151_refuted.
Print Assumptions C151_width_refuted.
Example C151_example : flags_compare Lt (flags_get [3]) (flags_get [0; 1]) = Ok true /\ flags_compare Gt (flags_get [3]) (flags_get [2]) = Ok true /\
  dict_eq (flags_get [5]) (flags_get [5; 0]) = true /\ dict_eq (flags_get [5]) (flags_get [4]) = false.
Proof. repeat split; vm_compute; reflexivity. Qed.
