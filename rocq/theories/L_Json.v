(** Lemmas about numbers in dictionaries. *)
From Verif Require Import PyBase M_Data M_Numeric M_Class M_Var M_Real M_Complex M_Gdb M_GdbDict M_Float M_Json L_Base S_Data L_Data S_Real L_Real L_Frac S_Float L_Float.

(** * Rounding depends on the value only *)
Lemma up_le2 n d l s : 0 <= s -> 0 <= l + s -> (d * up 2 l <= n * up 2 (- l) <-> d * 2 ^ (l + s) <= n * 2 ^ s).
Proof.
  intros S L. pose proof (up_shift 2 l s ltac:(lia) S L) as U. pose proof (up_pos 2 l ltac:(lia)). pose proof (up_pos 2 (- l) ltac:(lia)). assert (0 < 2 ^ s) by (apply Z.pow_pos_nonneg; lia). assert (0 < 2 ^ (l + s)) by (apply Z.pow_pos_nonneg; lia).
  rewrite (Z.mul_le_mono_pos_r (d * up 2 l) _ (2 ^ s)) by assumption. rewrite (Z.mul_le_mono_pos_r (d * 2 ^ (l + s)) _ (up 2 (- l))) by assumption.
  replace (d * up 2 l * 2 ^ s) with (d * (up 2 l * 2 ^ s)) by ring. rewrite U.
  replace (d * (2 ^ (l + s) * up 2 (- l))) with (d * 2 ^ (l + s) * up 2 (- l)) by ring. replace (n * up 2 (- l) * 2 ^ s) with (n * 2 ^ s * up 2 (- l)) by ring. tauto.
Qed.
Definition leading (n d : Z) : Z := let g := Z.log2 n - Z.log2 d in if n * up 2 (- g) <? d * up 2 g then g - 1 else g.
Lemma leading_le n d n' d' : 0 < n -> 0 < d -> 0 < n' -> 0 < d' -> n * d' = n' * d -> leading n d <= leading n' d'.
Proof.
  intros N D N' D' E. destruct (leading_bit n d N D) as [A _]. destruct (leading_bit n' d' N' D') as [_ B]. cbv zeta in A, B. fold (leading n d) in A. fold (leading n' d') in B.
  set (l := leading n d) in *. set (l' := leading n' d') in *. clearbody l l'. destruct (Z.le_gt_cases l l') as [|G]; [assumption|exfalso].
  set (s := Z.max 0 (Z.max (- l) (- (l' + 1)))). rewrite (up_le2 n d l s) in A by lia. apply Z.lt_nge in B. apply B. rewrite (up_le2 n' d' (l' + 1) s) by lia. clear B.
  assert (P : 2 ^ (l' + 1 + s) <= 2 ^ (l + s)) by (apply Z.pow_le_mono_r; lia). assert (PS : 0 < 2 ^ s) by (apply Z.pow_pos_nonneg; lia). set (u := 2 ^ (l + s)) in *. set (u' := 2 ^ (l' + 1 + s)) in *. set (w := 2 ^ s) in *. clearbody u u' w.
  apply (Z.mul_le_mono_pos_r _ _ d D). apply Z.le_trans with (d' * u * d); [apply Z.mul_le_mono_nonneg_r; [lia|apply Z.mul_le_mono_nonneg_l; lia]|]. replace (d' * u * d) with (d * u * d') by ring. replace (n' * w * d) with (n' * d * w) by ring. rewrite <- E. replace (n * d' * w) with (n * w * d') by ring. apply Z.mul_le_mono_nonneg_r; lia.
Qed.
Lemma half_even_scale n d t : 0 < d -> 0 < t -> half_even (n * t) (d * t) = half_even n d.
Proof.
  intros D T. unfold half_even. rewrite Z.div_mul_cancel_r, Z.mul_mod_distr_r by lia. set (r := n mod d). set (q := n / d). clearbody q r.
  replace (2 * (r * t) <? d * t) with (2 * r <? d) by (destruct (2 * r <? d) eqn:A; symmetry; [apply Z.ltb_lt; nia|apply Z.ltb_ge; nia]).
  replace (d * t <? 2 * (r * t)) with (d <? 2 * r) by (destruct (d <? 2 * r) eqn:A; symmetry; [apply Z.ltb_lt; nia|apply Z.ltb_ge; nia]). reflexivity.
Qed.
Lemma half_even_same n d n' d' : 0 < d -> 0 < d' -> n * d' = n' * d -> half_even n d = half_even n' d'.
Proof. intros D D' E. rewrite <- (half_even_scale n d d') by lia. rewrite E. rewrite (Z.mul_comm d d'). apply half_even_scale; lia. Qed.
Lemma round_float_same neg n d n' d' : 0 <= n -> 0 < d -> 0 <= n' -> 0 < d' -> n * d' = n' * d -> round_float neg n d = round_float neg n' d'.
Proof.
  intros N D N' D' E. destruct (Z.eq_dec n 0) as [->|NZ]; [assert (n' = 0) as -> by nia; reflexivity|]. assert (NZ' : n' <> 0) by nia.
  assert (L : leading n d = leading n' d') by (apply Z.le_antisymm; apply leading_le; lia).
  unfold round_float. replace (n =? 0) with false by lia. replace (n' =? 0) with false by lia. cbv zeta. rewrite !scale2_up. fold (leading n d) (leading n' d'). rewrite L.
  set (e := Z.max (leading n' d' - 52) (-1074)). rewrite (half_even_same (n * up 2 (- e)) (d * up 2 e) (n' * up 2 (- e)) (d' * up 2 e)); [reflexivity| | |].
  - apply Z.mul_pos_pos; [lia|apply up_pos; lia].
  - apply Z.mul_pos_pos; [lia|apply up_pos; lia].
  - replace (n * up 2 (- e) * (d' * up 2 e)) with (n * d' * (up 2 (- e) * up 2 e)) by ring. rewrite E. ring.
Qed.
Lemma float_of_dec_same neg c k c' k' : 0 <= c -> 0 <= c' -> sci_eq c k c' k' -> float_of_dec (Dec neg c k) = float_of_dec (Dec neg c' k').
Proof.
  intros C C' E. rewrite !float_of_dec_up. apply round_float_same; try (apply Z.mul_nonneg_nonneg; [lia|apply Z.lt_le_incl, up_pos; lia]); try (apply up_pos; lia).
  apply (sci_eq_frac c k c' k' (c' * up 10 k') (up 10 (- k'))) in E; [lia|apply up_pos; lia|reflexivity].
Qed.

(** * The shortest digits *)
Lemma fewest_spec fuel : forall c k, 0 < c -> exists j, 0 <= j /\ snd (fewest fuel c k) = k + j /\ fst (fewest fuel c k) * 10 ^ j = c /\ 0 < fst (fewest fuel c k).
Proof.
  induction fuel as [|f IH]; intros c k C; cbn [fewest]; [exists 0; cbn [fst snd]; change (10 ^ 0) with 1; lia|]. destruct (c mod 10 =? 0) eqn:M; [|exists 0; cbn [fst snd]; change (10 ^ 0) with 1; lia].
  assert (D : c = 10 * (c / 10)) by (pose proof (Z.div_mod c 10); lia). destruct (IH (c / 10) (k + 1) ltac:(lia)) as (j & J & S & F & P). exists (j + 1). split; [lia|]. split; [lia|]. split; [|exact P].
  rewrite Z.pow_add_r by lia. change (10 ^ 1) with 10. rewrite D, <- F at 2. ring.
Qed.
(** * The text of a float *)
Lemma exponent_literal x : exists sg ds, exponent_text x = sg ++ text_of ds /\ is_sign sg /\ Forall digit ds /\ ds <> [] /\ (if negative sg then - number ds else number ds) = x /\ Forall (fun y => is_space y = false) sg.
Proof.
  assert (D : Forall digit (digits (Z.abs x))) by (apply digits_are_digits; lia). assert (NE : digits (Z.abs x) <> []) by (apply digits_nonempty; lia).
  assert (V : number (digits (Z.abs x)) = Z.abs x) by (rewrite number_dec; apply dec_value_digits; lia).
  set (z := if Z.abs x <? 10 then [0] else []). assert (T : (if Z.abs x <? 10 then s2l "0" else []) = text_of z) by (unfold z; destruct (Z.abs x <? 10); reflexivity).
  assert (Z0 : number (z ++ digits (Z.abs x)) = Z.abs x) by (unfold z; destruct (Z.abs x <? 10); [rewrite <- V at 2; reflexivity|exact V]).
  exists (if x <? 0 then s2l "-" else s2l "+"), (z ++ digits (Z.abs x)). split; [unfold exponent_text; rewrite text_app; f_equal; f_equal; exact T|].
  split; [destruct (x <? 0); cbn; auto|]. split; [apply Forall_app; split; [unfold z; destruct (Z.abs x <? 10); repeat constructor; unfold digit; lia|exact D]|].
  split; [intros E; apply app_eq_nil in E as [_ E]; auto|]. rewrite Z0. destruct (x <? 0) eqn:S.
  - change (negative (s2l "-")) with true. split; [lia|]. apply Forall_forall. intros y [<-|[]]. reflexivity.
  - change (negative (s2l "+")) with false. split; [lia|]. apply Forall_forall. intros y [<-|[]]. reflexivity.
Qed.
Lemma float_repr_literal neg c k : 0 <= c -> (c = 0 -> k = 0) -> exists l j, lit_wf l /\ float_repr neg c k = lit_text l /\
  squash (lit_text l) = lit_text l /\ lit_neg l = neg /\ 0 <= j /\ lit_coef l = c * 10 ^ j /\ lit_scale l = k - j.
Proof.
  intros Hc K0. set (sg := if neg then s2l "-" else []). set (ds := digits c). set (n := zlen ds).
  assert (DD : Forall digit ds) by (apply digits_are_digits; lia).
  assert (Nn : number ds = c) by (unfold ds; rewrite number_dec; now apply dec_value_digits).
  assert (L1 : 1 <= n). { unfold n, ds. destruct (digits c) eqn:E; [now apply digits_nonempty in E|]. rewrite zlen_cons. pose proof (zlen_nonneg l). lia. }
  assert (HD : hd 1 ds = 0 -> c = 0).
  { intros H. destruct (Z.eq_dec c 0); auto. destruct (digits_head c ltac:(lia)) as (x & r & E & B). unfold ds in H. rewrite E in H. cbn in H. lia. }
  assert (SG : is_sign sg) by (unfold sg; destruct neg; cbn; auto).
  assert (SN : negative sg = neg) by (unfold sg; destruct neg; reflexivity).
  assert (SQ : Forall (fun x => is_space x = false) sg) by (unfold sg; destruct neg; repeat constructor).
  assert (NS : forall ds, Forall digit ds -> Forall (fun x => is_space x = false) (text_of ds)) by exact text_no_space.
  assert (ZL : zlen (map char_of_digit ds) = n) by (unfold zlen, n; now rewrite map_length).
  unfold float_repr. fold ds. cbv zeta. rewrite ZL. change (map char_of_digit ds) with (text_of ds). fold sg.
  destruct ((-4 <? n + k) && (n + k <=? 16)) eqn:C.
  - destruct (n + k <=? 0) eqn:C1; [|destruct (n <=? n + k) eqn:C2].
    + (* 0.00ddd *)
      set (z := Z.to_nat (- (n + k))). exists (Lit sg [0] (Some (repeat 0 z ++ ds)) None), 0.
      assert (F : Forall digit (repeat 0 z ++ ds)).
      { apply Forall_app. split; auto. apply Forall_forall. intros x I. apply repeat_spec in I. rewrite I. unfold digit. lia. }
      split; [|split; [|split; [|split; [|split; [|split]]]]].
      * unfold lit_wf, frac_digits. cbn [l_sign l_int l_frac l_exp]. repeat apply conj; auto. constructor; [unfold digit; lia|constructor].
      * unfold lit_text. cbn [l_sign l_int l_frac l_exp]. rewrite text_app, <- text_repeat0, app_nil_r. reflexivity.
      * apply squash_id. unfold lit_text. cbn [l_sign l_int l_frac l_exp]. apply Forall_app. split; auto. apply Forall_app. split; [apply NS; repeat constructor; unfold digit; lia|].
        rewrite app_nil_r. apply Forall_app. split; [repeat constructor|auto].
      * exact SN.
      * lia.
      * unfold lit_coef, frac_digits. cbn [l_int l_frac]. rewrite number_dec, !dec_value_app. change (dec_value (repeat 0 z)) with (number (repeat 0 z)).
        rewrite number_repeat0. change (dec_value [0]) with 0. rewrite <- number_dec, Nn. change (10 ^ 0) with 1. lia.
      * unfold lit_scale, frac_digits, exp_value. cbn [l_frac l_exp]. rewrite zlen_app, zlen_repeat. fold n. unfold z. lia.
    + (* ddd000.0 *)
      replace (n + k - n) with k by lia. set (z := Z.to_nat k). exists (Lit sg (ds ++ repeat 0 z) (Some [0]) None), (k + 1).
      assert (F : Forall digit (ds ++ repeat 0 z)).
      { apply Forall_app. split; auto. apply Forall_forall. intros x I. apply repeat_spec in I. rewrite I. unfold digit. lia. }
      assert (VF : number (ds ++ repeat 0 z) = c * 10 ^ k).
      { rewrite number_dec, dec_value_app. change (dec_value (repeat 0 z)) with (number (repeat 0 z)). rewrite number_repeat0, <- number_dec, Nn, zlen_repeat. unfold z. rewrite Z2Nat.id by lia. lia. }
      split; [|split; [|split; [|split; [|split; [|split]]]]].
      * unfold lit_wf, frac_digits. cbn [l_sign l_int l_frac l_exp]. repeat apply conj; auto; [repeat constructor; unfold digit; lia|].
        intros H. rewrite VF. rewrite HD; [lia|]. destruct ds as [|x r]; [now change (zlen (@nil Z)) with 0 in n; unfold n in L1; cbn in L1; lia|exact H].
      * unfold lit_text. cbn [l_sign l_int l_frac l_exp]. rewrite text_app, <- text_repeat0, app_nil_r, <- !app_assoc. reflexivity.
      * apply squash_id. unfold lit_text. cbn [l_sign l_int l_frac l_exp]. apply Forall_app. split; auto. apply Forall_app. split; [now apply NS|].
        rewrite app_nil_r. repeat constructor.
      * exact SN.
      * lia.
      * unfold lit_coef, frac_digits. cbn [l_int l_frac]. rewrite number_dec, dec_value_app, <- number_dec, VF. change (dec_value [0]) with 0. change (zlen [0]) with 1. rewrite Z.pow_add_r by lia. lia.
      * unfold lit_scale, frac_digits, exp_value. cbn [l_frac l_exp]. change (zlen [0]) with 1. lia.
    + (* dd.ddd *)
      set (q := Z.to_nat (n + k)). assert (K : zlen (firstn q ds) = n + k).
      { unfold zlen. rewrite firstn_length. unfold n, zlen, q in *. lia. }
      exists (Lit sg (firstn q ds) (Some (skipn q ds)) None), 0.
      assert (D1 : Forall digit (firstn q ds)) by now apply Forall_firstn. assert (D2 : Forall digit (skipn q ds)) by now apply Forall_skipn.
      split; [|split; [|split; [|split; [|split; [|split]]]]].
      * unfold lit_wf, frac_digits. cbn [l_sign l_int l_frac l_exp]. repeat apply conj; auto.
        intros H. rewrite hd_firstn in H by (unfold q; lia). apply HD in H.
        exfalso. assert (Eds : ds = [0]) by (unfold ds; now rewrite H). assert (n = 1) by (unfold n; now rewrite Eds). lia.
      * unfold lit_text. cbn [l_sign l_int l_frac l_exp]. unfold text_of at 1 2. rewrite firstn_map, skipn_map. fold (text_of (firstn q ds)). now rewrite app_nil_r.
      * apply squash_id. unfold lit_text. cbn [l_sign l_int l_frac l_exp]. apply Forall_app. split; auto. apply Forall_app. split; auto.
        rewrite app_nil_r. apply Forall_app. split; [repeat constructor|auto].
      * exact SN.
      * lia.
      * unfold lit_coef, frac_digits. cbn [l_int l_frac]. rewrite firstn_skipn. change (10 ^ 0) with 1. lia.
      * unfold lit_scale, frac_digits, exp_value. cbn [l_frac l_exp].
        assert (zlen (skipn q ds) = - k). { pose proof (f_equal zlen (firstn_skipn q ds)) as Q. rewrite zlen_app, K in Q. fold n in Q. lia. }
        lia.
  - (* scientific *)
    destruct (exponent_literal (n + k - 1)) as (sg2 & ds2 & XT & S2 & D2' & NE2 & XV & SQ2). rewrite XT.
    set (G := skipn 1 ds). assert (D2 : Forall digit G) by now apply Forall_skipn. assert (D1 : Forall digit (firstn 1 ds)) by now apply Forall_firstn.
    assert (LG : zlen G = n - 1). { pose proof (f_equal zlen (firstn_skipn 1 ds)) as Q. rewrite zlen_app in Q. fold n G in Q.
      assert (zlen (firstn 1 ds) = 1). { unfold zlen. rewrite firstn_length. unfold n, zlen in L1. lia. } lia. }
    assert (HN : hd 1 (firstn 1 ds) = 0 -> number (firstn 1 ds) = 0).
    { intros H. destruct ds as [|x r]; [reflexivity|]. cbn in H. rewrite H. reflexivity. }
    set (l := Lit sg (firstn 1 ds) (if n =? 1 then None else Some G) (Some (s2l "e", sg2, ds2))). exists l, 0.
    assert (FD : frac_digits l = G).
    { unfold l, frac_digits. cbn [l_frac]. destruct (n =? 1) eqn:E; auto. symmetry. destruct G; auto. rewrite zlen_cons in LG. pose proof (zlen_nonneg G). lia. }
    split; [|split; [|split; [|split; [|split; [|split]]]]].
    + unfold lit_wf. rewrite FD. unfold l. cbn [l_sign l_int l_exp]. repeat apply conj; auto. cbn. auto.
    + unfold lit_text, l. cbn [l_sign l_int l_frac l_exp]. f_equal. unfold text_of at 1 2. rewrite firstn_map, skipn_map. fold (text_of (firstn 1 ds)). f_equal. destruct (n =? 1); reflexivity.
    + apply squash_id. unfold lit_text, l. cbn [l_sign l_int l_frac l_exp]. apply Forall_app. split; auto. apply Forall_app. split; auto.
      apply Forall_app. split; [destruct (n =? 1); [constructor|]; apply Forall_app; split; [repeat constructor|auto]|]. apply Forall_app. split; [repeat constructor|]. apply Forall_app. split; auto.
    + exact SN.
    + lia.
    + unfold lit_coef. rewrite FD. unfold l. cbn [l_int]. unfold G. rewrite firstn_skipn. change (10 ^ 0) with 1. lia.
    + unfold lit_scale. rewrite FD. unfold exp_value, l. cbn [l_exp]. transitivity (n + k - 1 - zlen G); [f_equal; exact XV|lia].
Qed.
