(** C103, C104: texts of exact numbers. *)
From Verif Require Import L_Base M_Data M_Numeric M_Class M_Var M_Real M_Complex M_List M_Text S_Data L_Data S_Var L_Var S_Real L_Real L_Frac L_Radical P_Real L_Complex L_Kinds P_Kinds L_Pi.

(** ** Small facts about decimal texts *)
Lemma leqb_iff (a b : list Z) : leqb a b = true <-> a = b.
Proof. apply leqb_spec. Qed.
Lemma starts_two x u v : ~ In ROOT u -> x <> ROOT -> starts_with [x; ROOT] (u ++ ROOT :: v) = leqb u [x].
Proof.
  intros N X. destruct u as [|y [|z r]]; cbn [starts_with app leqb].
  - replace (x =? ROOT) with false by lia. reflexivity.
  - rewrite Z.eqb_sym. now destruct (y =? x).
  - assert (z <> ROOT) by (intros ->; apply N; right; now left). replace (ROOT =? z) with false by lia. rewrite !andb_false_r. reflexivity.
Qed.
Lemma ends_two y u v : ~ In ROOT v -> y <> ROOT -> ends_with [ROOT; y] (u ++ ROOT :: v) = leqb (rev v) [y].
Proof.
  intros N Y. unfold ends_with. rewrite rev_app_distr. cbn [rev app]. rewrite <- app_assoc. cbn [app].
  apply starts_two; auto. now rewrite <- in_rev.
Qed.
Lemma digits_one n : 0 <= n < 10 -> digits n = [n].
Proof. intros H. assert (C : n = 0 \/ n = 1 \/ n = 2 \/ n = 3 \/ n = 4 \/ n = 5 \/ n = 6 \/ n = 7 \/ n = 8 \/ n = 9) by lia.
  repeat (destruct C as [->|C]; [reflexivity|]). subst n. reflexivity. Qed.
Lemma digits_long n : 10 <= n -> exists a b r, digits n = a :: b :: r.
Proof.
  intros H. rewrite digits_step by exact H. pose proof (digits_nonempty (n / 10) ltac:(lia)) as N.
  destruct (digits (n / 10)) as [|a [|b r]]; [contradiction|exists a, (n mod 10), []; reflexivity|cbn; eauto].
Qed.
Lemma text_digits n : map char_of_digit (digits n) = text_of (digits n).
Proof. symmetry. apply text_chars. Qed.
Lemma digits_ok n : 0 <= n -> Forall digit (digits n).
Proof. intros H. apply digits_are_digits in H. exact H. Qed.
Lemma number_digits n : 0 <= n -> number (digits n) = n.
Proof. intros H. apply (dec_value_digits n H). Qed.
Lemma single n k : 0 <= n -> 0 <= k < 10 -> leqb (text_of (digits n)) [k + 48] = (n =? k) /\ leqb (rev (text_of (digits n))) [k + 48] = (n =? k).
Proof.
  intros N K. destruct (Z.lt_ge_cases n 10) as [L|L].
  - rewrite digits_one by lia. cbn. rewrite !andb_true_r. split; lia.
  - replace (n =? k) with false by lia. destruct (digits_long n L) as (a & b & r & E). rewrite E. unfold text_of. cbn [map]. split.
    + cbn. apply andb_false_r.
    + cbn [rev]. destruct (leqb _ _) eqn:Q; [|reflexivity]. apply leqb_iff in Q. apply (f_equal (@length Z)) in Q. rewrite !app_length in Q. cbn in Q. lia.
Qed.

(** ** C103: radicals *)
(** A nonzero term as it is written: no scalar 1 before a root, no root of 1. *)
Definition minus_of (a : Z) : str := if a <? 0 then s2l "-" else [].
Definition written (sg : str) (a b : Z) : term :=
  Term sg (if (a =? 1) && negb (b =? 1) then [] else digits (Z.abs a)) (if b =? 1 then None else Some ([8730], digits b)).
Definition vanishes (a b : Z) : bool := (a =? 0) || (b =? 0).
Lemma str_of_int_text a : str_of_int a = minus_of a ++ text_of (digits (Z.abs a)).
Proof.
  unfold str_of_int, minus_of. destruct (a <? 0) eqn:S.
  - rewrite Z.abs_neq by lia. rewrite text_digits. reflexivity.
  - rewrite Z.abs_eq by lia. now rewrite text_digits.
Qed.
Lemma no_root_int a : ~ In ROOT (minus_of a ++ text_of (digits (Z.abs a))).
Proof.
  intros I. apply in_app_or in I as [I|I].
  - unfold minus_of in I. destruct (a <? 0); cbn in I; [destruct I as [I|[]]; discriminate I|destruct I].
  - apply text_in in I; [unfold ROOT in I; lia|]. apply digits_ok. lia.
Qed.
Lemma reduce_term a b : 0 <= b ->
  radical_reduce (radical_term a b) = if vanishes a b then [] else term_text (written (minus_of a) a b).
Proof.
  intros B. unfold radical_reduce, radical_term. rewrite !str_of_int_text. set (u := minus_of a ++ text_of (digits (Z.abs a))).
  assert (V : minus_of b ++ text_of (digits (Z.abs b)) = text_of (digits b)) by (unfold minus_of; replace (b <? 0) with false by lia; rewrite Z.abs_eq by lia; reflexivity).
  rewrite V. assert (NV : ~ In ROOT (text_of (digits b))) by (apply text_not_in; [now apply digits_ok|unfold ROOT; lia]).
  assert (NU : ~ In ROOT u) by apply no_root_int. cbn [app].
  assert (K : forall k, 0 <= k < 10 -> leqb u [k + 48] = (a =? k)).
  { intros k Hk. subst u. unfold minus_of. destruct (a <? 0) eqn:S.
    - replace (a =? k) with false by lia. change (s2l "-") with [45]. cbn [app leqb]. replace (45 =? k + 48) with false by lia. reflexivity.
    - cbn [app]. replace (a =? k) with (Z.abs a =? k) by lia. now apply single; [lia|]. }
  rewrite !starts_two, !ends_two by (auto; unfold ROOT; lia).
  change [48] with [0 + 48]. change [49] with [1 + 48]. rewrite !K by lia.
  destruct (single b 0 B ltac:(lia)) as [_ ->]. destruct (single b 1 B ltac:(lia)) as [_ ->]. unfold vanishes.
  destruct (a =? 0) eqn:A0; [reflexivity|]. destruct (b =? 0) eqn:B0; [reflexivity|]. cbn [orb]. unfold term_text, written. cbn [t_sign t_scal t_rad].
  destruct (b =? 1) eqn:B1.
  - assert (b = 1) by lia. subst b. rewrite andb_false_r. change (text_of (digits 1)) with [49]. rewrite app_length. cbn [length].
    replace (length u + 2 - 2)%nat with (length u + 0)%nat by lia. rewrite firstn_app_2. cbn [firstn]. now rewrite !app_nil_r.
  - cbn [negb]. rewrite andb_true_r. destruct (a =? 1) eqn:A1; [|subst u; cbn [app]; now rewrite <- app_assoc].
    assert (a = 1) by lia. subst a. subst u. reflexivity.
Qed.
Lemma term_nonempty sg a b : term_text (written sg a b) <> [].
Proof.
  unfold term_text, written. cbn [t_sign t_scal t_rad]. intros H. apply app_eq_nil in H as [_ H]. apply app_eq_nil in H as [H1 H2].
  destruct (b =? 1); [|discriminate H2]. rewrite andb_false_r in H1. unfold text_of in H1. apply map_eq_nil in H1.
  revert H1. apply digits_nonempty. lia.
Qed.
(** The radical that the text of components stands for. *)
Definition over (e : Z) : option (str * list Z) := if e =? 1 then None else Some ([], digits e).
Definition plus_of (a : Z) : str := if a <? 0 then s2l "-" else s2l "+".
Definition shown (ls lr rs rr e : Z) : radical :=
  if vanishes ls lr then
    if vanishes rs rr then Radical (Term [] [0] None) None None
    else Radical (written (minus_of rs) rs rr) None (over e)
  else if vanishes rs rr then Radical (written (minus_of ls) ls lr) None (over e)
  else Radical (written (minus_of ls) ls lr) (Some (written (plus_of rs) rs rr)) (Some ([], digits e)).

Lemma written_chars sg a b c : 0 <= b -> In c (term_text (written sg a b)) -> In c sg \/ 48 <= c <= 57 \/ c = ROOT.
Proof.
  intros B I. unfold term_text, written in I. cbn [t_sign t_scal t_rad] in I. apply in_app_or in I as [I|I]; [now left|right].
  apply in_app_or in I as [I|I].
  - left. destruct ((a =? 1) && negb (b =? 1)); [destruct I|]. apply text_in in I; auto. apply digits_ok. lia.
  - destruct (b =? 1); [destruct I|]. destruct I as [I|I]; [right; now rewrite <- I|left]. apply text_in in I; auto. now apply digits_ok.
Qed.
Definition ignored : str := spaces ++ s2l "()*".
Lemma kept c : 48 <= c <= 57 \/ c = ROOT \/ c = 43 \/ c = 45 \/ c = 47 -> existsb (Z.eqb c) ignored = false.
Proof.
  intros H. destruct (existsb (Z.eqb c) ignored) eqn:E; [|reflexivity]. apply existsb_exists in E as (x & I & Q). apply Z.eqb_eq in Q. subst x.
  exfalso. unfold ROOT in H. cbn in I. lia.
Qed.
Lemma without_all s : (forall c, In c s -> 48 <= c <= 57 \/ c = ROOT \/ c = 43 \/ c = 45 \/ c = 47) -> without ignored s = s.
Proof.
  induction s as [|c s IH]; intros H; [reflexivity|]. unfold without. cbn [filter]. rewrite kept by (apply H; now left). cbn [negb].
  f_equal. apply IH. intros x X. apply H. now right.
Qed.
Lemma without_app u v : without ignored (u ++ v) = without ignored u ++ without ignored v.
Proof. apply filter_app. Qed.
Lemma minus_chars a c : In c (minus_of a) -> c = 45.
Proof. unfold minus_of. destruct (a <? 0); cbn; intuition. Qed.
Lemma over_text e : 0 <= e -> (if e =? 1 then [] else s2l "/" ++ str_of_int e) = match over e with Some (s, ds) => s2l "/" ++ s ++ text_of ds | None => [] end.
Proof.
  intros E. unfold over. destruct (e =? 1); [reflexivity|]. rewrite str_of_int_text. unfold minus_of. replace (e <? 0) with false by lia.
  rewrite Z.abs_eq by lia. reflexivity.
Qed.
Lemma term_split a b : term_text (written (minus_of a) a b) = minus_of a ++ term_text (written [] a b).
Proof. reflexivity. Qed.
(** The text of five components is the written form, with parentheses around a sum. *)
Lemma show_written ls lr rs rr e : 0 <= lr -> 0 <= rr -> 0 <= e ->
  without ignored (radical_show ls lr rs rr e) = rad_text (shown ls lr rs rr e).
Proof.
  intros HL HR HE. unfold radical_show. rewrite !reduce_term by assumption. unfold shown.
  assert (ONE : forall a b, 0 <= b -> let t := term_text (written (minus_of a) a b) in
    without ignored (str_replace (s2l "+-") (s2l "-") (if e =? 1 then t else t ++ s2l "/" ++ str_of_int e)) = rad_text (Radical (written (minus_of a) a b) None (over e))).
  { intros a b B t. unfold rad_text. cbn [r_fst r_snd r_den app]. rewrite <- over_text by exact HE.
    assert (Q : (if e =? 1 then t else t ++ s2l "/" ++ str_of_int e) = t ++ (if e =? 1 then [] else s2l "/" ++ str_of_int e)) by (destruct (e =? 1); [now rewrite app_nil_r|reflexivity]).
    rewrite Q. clear Q.
    assert (CH : forall c, In c (t ++ (if e =? 1 then [] else s2l "/" ++ str_of_int e)) -> 48 <= c <= 57 \/ c = ROOT \/ c = 45 \/ c = 47).
    { intros c I. apply in_app_or in I as [I|I].
      - apply (written_chars _ a b) in I as [I|[I|I]]; auto. apply minus_chars in I. auto.
      - destruct (e =? 1); [destruct I|]. destruct I as [I|I]; [right; right; right; now rewrite <- I|]. change (In c (str_of_int e)) in I. rewrite str_of_int_text in I.
        apply in_app_or in I as [I|I]; [apply minus_chars in I; auto|]. apply text_in in I; auto. apply digits_ok. lia. }
    change (s2l "+-") with [43; 45]. rewrite str_replace_none; [|intros I; apply CH in I; unfold ROOT in I; lia].
    apply without_all. intros c I. apply CH in I. tauto. }
  destruct (vanishes ls lr) eqn:V1; destruct (vanishes rs rr) eqn:V2.
  - reflexivity.
  - pose proof (term_nonempty (minus_of rs) rs rr) as N. specialize (ONE rs rr HR). cbv zeta in ONE. rewrite <- ONE.
    destruct (term_text (written (minus_of rs) rs rr)); [contradiction|reflexivity].
  - pose proof (term_nonempty (minus_of ls) ls lr) as N. specialize (ONE ls lr HL). cbv zeta in ONE. rewrite <- ONE.
    destruct (term_text (written (minus_of ls) ls lr)); [contradiction|reflexivity].
  - pose proof (term_nonempty (minus_of rs) rs rr) as N2. pose proof (term_nonempty (minus_of ls) ls lr) as N1.
    set (L := term_text (written (minus_of ls) ls lr)) in *. set (R := term_text (written (minus_of rs) rs rr)) in *.
    transitivity (without ignored (str_replace (s2l "+-") (s2l "-") (s2l "(" ++ L ++ s2l "+" ++ R ++ s2l ")" ++ s2l "/" ++ str_of_int e))).
    { destruct L; [contradiction|]. destruct R; [contradiction|]. reflexivity. }
    assert (CL : forall c, In c L -> 48 <= c <= 57 \/ c = ROOT \/ c = 45).
    { intros c I. apply (written_chars _ ls lr) in I as [I|[I|I]]; auto. apply minus_chars in I. auto. }
    assert (CR : forall c, In c (term_text (written [] rs rr)) -> 48 <= c <= 57 \/ c = ROOT).
    { intros c I. apply (written_chars _ rs rr) in I as [I|[I|I]]; auto. destruct I. }
    assert (CE : forall c, In c (str_of_int e) -> 48 <= c <= 57).
    { intros c I. rewrite str_of_int_text in I. unfold minus_of in I. replace (e <? 0) with false in I by lia. cbn [app] in I.
      apply text_in in I; auto. apply digits_ok. lia. }
    assert (TAIL : ~ In 43 (term_text (written [] rs rr) ++ s2l ")" ++ s2l "/" ++ str_of_int e)).
    { intros I. apply in_app_or in I as [I|I]; [apply CR in I; unfold ROOT in I; lia|]. destruct I as [I|[I|I]]; [discriminate I|discriminate I|]. apply CE in I. lia. }
    assert (E : str_replace (s2l "+-") (s2l "-") (s2l "(" ++ L ++ s2l "+" ++ R ++ s2l ")" ++ s2l "/" ++ str_of_int e) =
      s2l "(" ++ L ++ plus_of rs ++ term_text (written [] rs rr) ++ s2l ")" ++ s2l "/" ++ str_of_int e).
    { change (s2l "+-") with [43; 45]. change (s2l "(" ++ L ++ ?x) with ((40 :: L) ++ x).
      rewrite str_replace_app by (intros [I|I]; [discriminate I|apply CL in I; unfold ROOT in I; lia]).
      cbn [app]. change (s2l "(") with [40]. cbn [app]. do 2 f_equal. subst R. rewrite term_split. unfold minus_of, plus_of. destruct (rs <? 0) eqn:S.
      - change (s2l "+" ++ (s2l "-" ++ ?x) ++ ?y) with ([43; 45] ++ x ++ y). rewrite str_replace_hit. rewrite str_replace_none by exact TAIL. reflexivity.
      - cbn [app] in *. change (s2l "+") with [43]. cbn [app]. rewrite str_replace_miss.
        + rewrite str_replace_none by exact TAIL. reflexivity.
        + pose proof (term_nonempty [] rs rr) as N. destruct (term_text (written [] rs rr)) as [|c r] eqn:Q; [contradiction|].
          cbn. specialize (CR c (or_introl eq_refl)). destruct c; try reflexivity. unfold ROOT in CR. lia. }
    rewrite E. rewrite !without_app. unfold rad_text. cbn [r_fst r_snd r_den].
    change (without ignored (s2l "(")) with (@nil Z). change (without ignored (s2l ")")) with (@nil Z). change (without ignored (s2l "/")) with (s2l "/").
    rewrite !without_all; [| | | |].
    + cbn [app]. f_equal. change (term_text (written (plus_of rs) rs rr)) with (plus_of rs ++ term_text (written [] rs rr)). rewrite <- app_assoc. do 3 f_equal.
      rewrite str_of_int_text. unfold minus_of. replace (e <? 0) with false by lia. rewrite Z.abs_eq by lia. reflexivity.
    + intros c I. apply CE in I. auto.
    + intros c I. apply CR in I. tauto.
    + intros c I. unfold plus_of in I. destruct (rs <? 0); destruct I as [I|[]]; rewrite <- I; cbn; auto.
    + intros c I. apply CL in I. tauto.
Qed.

Lemma signs_ok a : is_sign (minus_of a) /\ is_sign (plus_of a) /\ plus_of a <> [] /\
  (forall v, signed (minus_of a) v = if a <? 0 then - v else v) /\ (forall v, signed (plus_of a) v = if a <? 0 then - v else v).
Proof. unfold minus_of, plus_of, is_sign. destruct (a <? 0); cbn; intuition; discriminate. Qed.
Lemma written_wf sg a b : 0 <= b -> is_sign sg -> term_wf (written sg a b).
Proof.
  intros B G. unfold term_wf, written. cbn [t_sign t_scal t_rad]. split; [exact G|]. split.
  - destruct (_ && _); [constructor|]. apply digits_ok. lia.
  - destruct (b =? 1); [rewrite andb_false_r; apply digits_nonempty; lia|]. split; [now left|]. split; [now apply digits_ok|now apply digits_nonempty].
Qed.
Lemma written_value sg a b : 0 <= b -> (forall v, signed sg v = if a <? 0 then - v else v) ->
  scalar (written sg a b) = a /\ radicand (written sg a b) = b /\ t_sign (written sg a b) = sg /\ (t_rad (written sg a b) = None <-> b = 1).
Proof.
  intros B G. unfold scalar, radicand, written. cbn [t_sign t_scal t_rad]. split; [|split; [|split; [reflexivity|]]].
  - rewrite G. destruct ((a =? 1) && negb (b =? 1)) eqn:E; [replace (a <? 0) with false by lia; lia|].
    pose proof (digits_nonempty (Z.abs a) ltac:(lia)) as N. pose proof (number_digits (Z.abs a) ltac:(lia)) as V.
    destruct (digits (Z.abs a)); [contradiction|]. rewrite V. destruct (a <? 0) eqn:S; lia.
  - destruct (b =? 1) eqn:E; [lia|]. now apply number_digits.
  - destruct (b =? 1) eqn:E; split; intros H; try reflexivity; try lia. discriminate H.
Qed.
Lemma over_form e : 0 <= e -> match over e with Some (s, ds) => is_sign s /\ Forall digit ds /\ ds <> [] | None => True end.
Proof. intros E. unfold over. destruct (e =? 1); [exact I|]. split; [now left|]. split; [now apply digits_ok|now apply digits_nonempty]. Qed.
Lemma shown_form ls lr rs rr e : 0 <= lr -> 0 <= rr -> 0 <= e -> rad_form (shown ls lr rs rr e).
Proof.
  intros L R E. unfold shown, rad_form. destruct (signs_ok ls) as (A1 & A2 & A3 & _). destruct (signs_ok rs) as (B1 & B2 & B3 & _).
  destruct (vanishes ls lr); destruct (vanishes rs rr); cbn [r_fst r_snd r_den].
  - split; [|split; exact I]. split; [now left|]. split; [constructor; [unfold digit; lia|constructor]|discriminate].
  - split; [now apply written_wf|]. split; [exact I|now apply over_form].
  - split; [now apply written_wf|]. split; [exact I|now apply over_form].
  - split; [now apply written_wf|]. split; [split; [now apply written_wf|exact B3]|]. split; [now left|]. split; [now apply digits_ok|now apply digits_nonempty].
Qed.
Lemma shown_unsigned ls lr rs rr e : ~ signed_below_root (shown ls lr rs rr e).
Proof.
  intros (A & _ & s & ds & B & C). unfold shown, over in *. destruct (vanishes ls lr); destruct (vanishes rs rr); cbn [r_snd r_den] in *;
    try discriminate A; try discriminate B; destruct (e =? 1); try discriminate B; injection B as <- <-; congruence.
Qed.
Lemma over_value e : 0 <= e -> match over e with Some (s, ds) => signed s (number ds) | None => 1 end = e.
Proof. intros E. unfold over. destruct (e =? 1) eqn:Q; [lia|]. now apply number_digits. Qed.
(** What the written form is worth. *)
Lemma shown_values ls lr rs rr e : 0 <= lr -> 0 <= rr -> 0 <= e ->
  let r := shown ls lr rs rr e in let l0 := vanishes ls lr in let r0 := vanishes rs rr in
  scalar (r_fst r) = (if l0 then if r0 then 0 else rs else ls) /\
  radicand (r_fst r) = (if l0 then if r0 then 1 else rr else lr) /\
  scalar2 r = (if l0 || r0 then 0 else rs) /\ radicand2 r = (if l0 || r0 then 1 else rr) /\
  denominator r = (if l0 && r0 then 1 else e) /\
  (rootless_sum r <-> l0 = false /\ r0 = false /\ lr = 1 /\ rr = 1).
Proof.
  intros L R E. cbv zeta. unfold shown. destruct (signs_ok ls) as (_ & _ & _ & G1 & _). destruct (signs_ok rs) as (_ & _ & _ & G2 & G3).
  destruct (written_value (minus_of ls) ls lr L G1) as (A1 & A2 & _ & A3). destruct (written_value (minus_of rs) rs rr R G2) as (B1 & B2 & _ & _).
  destruct (written_value (plus_of rs) rs rr R G3) as (C1 & C2 & _ & C3).
  unfold scalar2, radicand2, denominator, rootless_sum.
  destruct (vanishes ls lr); destruct (vanishes rs rr); cbn [r_fst r_snd r_den orb andb]; rewrite ?over_value by exact E;
    (split; [auto|split; [auto|split; [auto|split; [auto|split; [auto|]]]]]); try reflexivity.
  - split; [intros (t & X & _); discriminate X|intros (X & _); discriminate X].
  - split; [intros (t & X & _); discriminate X|intros (X & _); discriminate X].
  - split; [intros (t & X & _); discriminate X|intros (_ & X & _); discriminate X].
  - now apply number_digits.
  - split.
    + intros (t & X & Y & Z). injection X as <-. split; [reflexivity|]. split; [reflexivity|]. split; [now apply A3|now apply C3].
    + intros (_ & _ & X & Y). eexists. split; [reflexivity|]. split; [now apply A3|now apply C3].
Qed.

(** The number that five components stand for, whatever the roots are worth,
    except that the root of 0 is 0. *)
Definition same_number (a b c d e a' b' c' d' e' : Z) : Prop :=
  forall f : Z -> Z, f 0 = 0 -> (a * f b + c * f d) * e' = (a' * f b' + c' * f d') * e.
(** The components that the setters can store. *)
Definition in_range (ls lr rs rr e : Z) : Prop :=
  Z.abs ls < 1000 /\ 0 <= lr < 1000 /\ Z.abs rs < 1000 /\ 0 <= rr < 1000 /\ 0 <= e < 1000.
Theorem C103_reload_iff : forall ls lr rs rr e d, in_range ls lr rs rr e -> (lr = rr -> Z.abs (ls + rs) < 1000) ->
  length d = 9%nat -> wf_bytes d ->
  let left := ls <> 0 /\ lr <> 0 in let right := rs <> 0 /\ rr <> 0 in
  ((exists b, radical_load (radical_show ls lr rs rr e) (Buf true d) = (b, oret tt)) <->
   e <> 0 /\ (left \/ right) /\ ~ (left /\ right /\ lr = rr /\ (lr = 1 \/ ls + rs = 0))).
Proof.
  intros ls lr rs rr e d (b1 & b2 & b3 & b4 & b5) BS LD WD left right.
  destruct (shown_values ls lr rs rr e ltac:(lia) ltac:(lia) ltac:(lia)) as (V1 & V2 & V3 & V4 & V5 & V6). cbv zeta in *.
  pose proof (show_written ls lr rs rr e ltac:(lia) ltac:(lia) ltac:(lia)) as T. pose proof (shown_form ls lr rs rr e ltac:(lia) ltac:(lia) ltac:(lia)) as F.
  pose proof (shown_unsigned ls lr rs rr e) as U.
  assert (VL : vanishes ls lr = false <-> left) by (unfold vanishes, left; lia). assert (VR : vanishes rs rr = false <-> right) by (unfold vanishes, right; lia).
  rewrite (C73_accepted_iff (shown ls lr rs rr e)); auto; try (rewrite ?V1, ?V2, ?V3, ?V4, ?V5; destruct (vanishes ls lr); destruct (vanishes rs rr); cbn [orb andb] in *; lia).
  rewrite V6. unfold left_part. rewrite V1, V2, V3, V4, V5.
  destruct (vanishes ls lr) eqn:E1; destruct (vanishes rs rr) eqn:E2; cbn [orb andb].
  - split; [intros (_ & X & _); cbn in X; lia|]. intros (_ & [X|X] & _); [apply VL in X|apply VR in X]; discriminate X.
  - assert (right) by now apply VR. assert (~ left) by (intros X; apply VL in X; discriminate X). assert (rr <? 1 = false) by (unfold right in *; lia).
    rewrite H1. assert (~ (true = false /\ false = false /\ lr = 1 /\ rr = 1)) by (intros (X & _); discriminate X).
    split; [intros (X & _); split; [exact X|]; split; [now right|tauto]|]. intros (X & _). split; [exact X|]. split; [destruct (rr =? 1); unfold right in *; lia|now split].
  - assert (left) by now apply VL. assert (~ right) by (intros X; apply VR in X; discriminate X). assert (lr <? 1 = false) by (unfold left in *; lia).
    rewrite H1. assert (~ (false = false /\ true = false /\ lr = 1 /\ rr = 1)) by (intros (_ & X & _); discriminate X).
    split; [intros (X & _); split; [exact X|]; split; [now left|tauto]|]. intros (X & _). split; [exact X|]. split; [destruct (lr =? 1); unfold left in *; lia|now split].
  - assert (left) by now apply VL. assert (right) by now apply VR.
    assert (Q : (false = false /\ false = false /\ lr = 1 /\ rr = 1) <-> lr = 1 /\ rr = 1) by tauto. rewrite Q. unfold left, right in *.
    destruct (lr <? rr) eqn:C1; [|destruct (lr =? rr) eqn:C2]; intuition lia.
Qed.
Print Assumptions C103_reload_iff.
(** The reloaded components stand for the same number. *)
Theorem C103_reload_value : forall ls lr rs rr e d, in_range ls lr rs rr e -> (lr = rr -> Z.abs (ls + rs) < 1000) ->
  length d = 9%nat -> wf_bytes d -> (exists b, radical_load (radical_show ls lr rs rr e) (Buf true d) = (b, oret tt)) ->
  exists d' ls' lr' rs' rr' e', radical_load (radical_show ls lr rs rr e) (Buf true d) = (Buf true d', oret tt) /\
    radical_comps (Buf true d') = Ok (ls', lr', rs', rr', e') /\ same_number ls lr rs rr e ls' lr' rs' rr' e' /\ e <> 0 /\ 0 < e'.
Proof.
  intros ls lr rs rr e d HR BS LD WD EX. pose proof HR as (b1 & b2 & b3 & b4 & b5).
  destruct (shown_values ls lr rs rr e ltac:(lia) ltac:(lia) ltac:(lia)) as (V1 & V2 & V3 & V4 & V5 & V6). cbv zeta in *.
  pose proof (show_written ls lr rs rr e ltac:(lia) ltac:(lia) ltac:(lia)) as T. pose proof (shown_form ls lr rs rr e ltac:(lia) ltac:(lia) ltac:(lia)) as F.
  pose proof EX as EI. apply (C103_reload_iff ls lr rs rr e d HR BS LD WD) in EI.
  assert (Y : Z.abs (scalar (r_fst (shown ls lr rs rr e))) < 1000 /\ radicand (r_fst (shown ls lr rs rr e)) < 1000 /\ Z.abs (scalar2 (shown ls lr rs rr e)) < 1000 /\
    radicand2 (shown ls lr rs rr e) < 1000 /\ Z.abs (denominator (shown ls lr rs rr e)) < 1000).
  { rewrite ?V1, ?V2, ?V3, ?V4, ?V5; destruct (vanishes ls lr); destruct (vanishes rs rr); cbn [orb andb] in *; lia. }
  destruct Y as (Y1 & Y2 & Y3 & Y4 & Y5).
  assert (Y6 : radicand (r_fst (shown ls lr rs rr e)) = radicand2 (shown ls lr rs rr e) -> Z.abs (scalar (r_fst (shown ls lr rs rr e)) + scalar2 (shown ls lr rs rr e)) < 1000).
  { rewrite V1, V2, V3, V4. destruct (vanishes ls lr); destruct (vanishes rs rr); cbn [orb andb]; intros Q; lia. }
  apply (C73_accepted_iff (shown ls lr rs rr e)) in EX as (E0 & L0 & N1 & N2); auto.
  destruct (C31_radical_value (shown ls lr rs rr e) (radical_show ls lr rs rr e) d (rad_form_wf _ F N1 N2) T LD WD E0 L0 Y1 Y2 Y3 Y4 Y5 Y6)
    as (d' & ls' & lr' & rs' & rr' & e' & H1 & _ & H2 & H3 & H4 & H5 & H6 & H7 & H8 & _).
  exists d', ls', lr', rs', rr', e'. split; [exact H1|]. split; [unfold radical_comps; rewrite H2, H3, H4, H5, H6; reflexivity|].
  split; [|lia]. intros f F0. specialize (H7 f). rewrite V1, V2, V3, V4, V5 in H7. unfold vanishes in *.
  destruct ((ls =? 0) || (lr =? 0)) eqn:A1; destruct ((rs =? 0) || (rr =? 0)) eqn:A2; cbn [orb andb] in H7.
  - exfalso. destruct EI as (_ & [[X Y]|[X Y]] & _); [apply orb_true_iff in A1 as [A1|A1]; apply Z.eqb_eq in A1; contradiction|apply orb_true_iff in A2 as [A2|A2]; apply Z.eqb_eq in A2; contradiction].
  - assert (Z1 : ls * f lr = 0) by (apply orb_true_iff in A1 as [A1|A1]; apply Z.eqb_eq in A1; subst; rewrite ?F0; ring). rewrite Z1. rewrite <- H7. ring.
  - assert (Z1 : rs * f rr = 0) by (apply orb_true_iff in A2 as [A2|A2]; apply Z.eqb_eq in A2; subst; rewrite ?F0; ring). rewrite Z1. rewrite <- H7. ring.
  - exact H7.
Qed.
Print Assumptions C103_reload_value.
(** What the loader stores always reloads. *)
Theorem C103_normal : forall ls lr rs rr e d, in_range ls lr rs rr e -> length d = 9%nat -> wf_bytes d ->
  0 < e -> ls <> 0 -> (rr < lr \/ rs = 0 /\ rr = 0) -> 0 < lr ->
  exists b, radical_load (radical_show ls lr rs rr e) (Buf true d) = (b, oret tt).
Proof.
  intros ls lr rs rr e d R LD WD E LS O LR. apply C103_reload_iff; auto; [lia|]. split; [lia|]. split; [left; lia|]. intros (_ & _ & X & _). lia.
Qed.
Print Assumptions C103_normal.
(** Text, number, text, number: every text that loads, other than a sum of roots
    of 0, is shown as a text that loads again as the same number. *)
Theorem C103_stable : forall r s d, rad_wf r -> without (spaces ++ s2l "()*") s = rad_text r -> length d = 9%nat -> wf_bytes d ->
  denominator r <> 0 -> left_part r <> 0 ->
  Z.abs (scalar (r_fst r)) < 1000 -> radicand (r_fst r) < 1000 -> Z.abs (scalar2 r) < 1000 -> radicand2 r < 1000 ->
  Z.abs (denominator r) < 1000 -> (radicand (r_fst r) = radicand2 r -> Z.abs (scalar (r_fst r) + scalar2 r) < 1000) ->
  ~ (radicand (r_fst r) = 0 /\ radicand2 r = 0) ->
  exists d1 t1 d2 ls lr rs rr e, radical_load s (Buf true d) = (Buf true d1, oret tt) /\ radical_string (Buf true d1) = Ok t1 /\
    radical_load t1 (Buf true d) = (Buf true d2, oret tt) /\ radical_comps (Buf true d2) = Ok (ls, lr, rs, rr, e) /\ 0 < e /\
    same_number (scalar (r_fst r)) (radicand (r_fst r)) (scalar2 r) (radicand2 r) (denominator r) ls lr rs rr e.
Proof.
  intros r s d W T LD WD E0 L0 b1 b2 b3 b4 b5 b6 NZ.
  destruct (radical_load_spec r s d W T LD WD) as [_ R].
  destruct (R E0 L0 b1 b2 b3 b4 b5 b6) as (t & e & ls & rs & lr & rr & H & H1 & H2 & H3 & H4 & H5 & H6 & H7 & H8). clear R.
  assert (B0 : is_byte (nth 0 d 0)) by (destruct d; [discriminate LD|]; now inversion WD).
  destruct (rad_read (nth 0 d 0) t e ls rs lr rr) as (G1 & G2 & G3 & G4 & G5 & G6); auto; try lia.
  set (d1 := rad_buf (nth 0 d 0) t e ls rs lr rr) in *.
  set (sl := ls * (if Z.land t 1 =? 0 then 1 else -1)) in *. set (sr := rs * (if Z.land t 2 =? 0 then 1 else -1)) in *.
  assert (S1 : Z.abs sl < 1000 /\ sl <> 0) by (subst sl; destruct (Z.land t 1 =? 0); lia).
  assert (S2 : Z.abs sr < 1000 /\ (rs = 0 -> sr = 0)) by (subst sr; destruct (Z.land t 2 =? 0); lia).
  assert (LR : 0 < lr).
  { destruct (Z.eq_dec lr 0) as [->|N]; [exfalso|lia]. assert (rr = 0) by lia. subst rr. unfold left_part in L0.
    set (A := scalar (r_fst r)) in *. set (B := radicand (r_fst r)) in *. set (C := scalar2 r) in *. set (D := radicand2 r) in *.
    specialize (H8 (fun x => if x =? Z.max B D then 1 else 0)). cbv beta in H8.
    assert (BD : 0 <= B /\ 0 <= D).
    { subst B D. unfold radicand2, radicand. destruct W as (W1 & W2 & _). destruct W1 as (_ & _ & W1). split.
      - destruct (t_rad (r_fst r)) as [[q ds]|]; [|lia]. apply number_nonneg. tauto.
      - destruct (r_snd r) as [u|]; [|lia]. destruct W2 as ((_ & _ & W2) & _). destruct (t_rad u) as [[q ds]|]; [|lia]. apply number_nonneg. tauto. }
    replace (0 =? Z.max B D) with false in H8 by lia.
    destruct (B <? D) eqn:C1; [|destruct (B =? D) eqn:C2].
    - replace (B =? Z.max B D) with false in H8 by lia. replace (D =? Z.max B D) with true in H8 by lia. nia.
    - replace (B =? Z.max B D) with true in H8 by lia. replace (D =? Z.max B D) with true in H8 by lia. nia.
    - replace (B =? Z.max B D) with true in H8 by lia. replace (D =? Z.max B D) with false in H8 by lia. nia. }
  assert (CO : radical_comps (Buf true d1) = Ok (sl, lr, sr, rr, e)).
  { unfold radical_comps, signed_left_scalar, signed_right_scalar. rewrite G1, G2, G3, G4, G5, G6. reflexivity. }
  assert (IR : in_range sl lr sr rr e) by (unfold in_range; lia).
  assert (BS : lr = rr -> Z.abs (sl + sr) < 1000) by (clear - H7 LR S1 S2; lia).
  destruct (C103_reload_value sl lr sr rr e d IR BS LD WD) as (d2 & ls' & lr' & rs' & rr' & e' & Q1 & Q2 & Q3 & Q4 & Q5).
  { apply C103_normal; [exact IR|exact LD|exact WD|apply H2|apply S1| |exact LR]. destruct H7 as [H7|[H7 H7']]; [now left|right; split; [now apply S2|exact H7']]. }
  exists d1, (radical_show sl lr sr rr e), d2, ls', lr', rs', rr', e'. split; [exact H|]. split; [unfold radical_string; rewrite CO; reflexivity|].
  split; [exact Q1|]. split; [exact Q2|]. split; [exact Q5|]. intros f F0. specialize (H8 f). specialize (Q3 f F0).
  apply (Z.mul_cancel_l _ _ e); [clear - H2; lia|]. set (X := _ + _ : Z) in H8 at 1. fold X. set (Y := sl * f lr + sr * f rr) in *.
  transitivity (X * e * e'); [ring|]. rewrite H8. transitivity (Y * e' * denominator r); [ring|]. rewrite Q3. ring.
Qed.
Print Assumptions C103_stable.
(** The long format "#" keeps every part, so it reloads unless the part under the
    larger root vanishes. *)
Definition long_form (ls lr rs rr e : Z) : radical :=
  Radical (Term (minus_of ls) (digits (Z.abs ls)) (Some ([8730], digits lr))) (Some (Term (plus_of rs) (digits (Z.abs rs)) (Some ([8730], digits rr)))) (Some ([], digits e)).
Lemma number_chars n c : 0 <= n -> In c (text_of (digits n)) -> 48 <= c <= 57.
Proof. intros N I. apply text_in in I; [exact I|now apply digits_ok]. Qed.
Lemma plain_number n : 0 <= n -> str_of_int n = text_of (digits n).
Proof. intros N. rewrite str_of_int_text. unfold minus_of. replace (n <? 0) with false by lia. now rewrite Z.abs_eq. Qed.
Lemma long_written ls lr rs rr e : 0 <= lr -> 0 <= rr -> 0 <= e ->
  without ignored (radical_long_show ls lr rs rr e) = rad_text (long_form ls lr rs rr e).
Proof.
  intros HL HR HE. unfold radical_long_show, radical_term. rewrite (str_of_int_text ls), (str_of_int_text rs), !plain_number by assumption.
  set (L := text_of (digits (Z.abs ls))). set (R := text_of (digits (Z.abs rs))).
  assert (CL : forall c, In c L -> 48 <= c <= 57) by (intros c; apply number_chars; lia).
  assert (CR : forall c, In c R -> 48 <= c <= 57) by (intros c; apply number_chars; lia).
  pose proof (fun c => number_chars lr c HL) as C1. pose proof (fun c => number_chars rr c HR) as C2. pose proof (fun c => number_chars e c HE) as C3.
  set (P := text_of (digits lr)) in *. set (Q := text_of (digits rr)) in *. set (E := text_of (digits e)) in *.
  assert (TAIL : ~ In 43 ((R ++ [ROOT] ++ Q) ++ s2l ")/" ++ E)).
  { intros I. apply in_app_or in I as [I|I]; [apply in_app_or in I as [I|I]; [apply CR in I; lia|destruct I as [I|I]; [discriminate I|apply C2 in I; lia]]|].
    destruct I as [I|[I|I]]; [discriminate I|discriminate I|]. apply C3 in I. lia. }
  assert (EQ : str_replace (s2l "+-") (s2l "-") (s2l "(" ++ ((minus_of ls ++ L) ++ [ROOT] ++ P) ++ s2l "+" ++ ((minus_of rs ++ R) ++ [ROOT] ++ Q) ++ s2l ")/" ++ E) =
    s2l "(" ++ ((minus_of ls ++ L) ++ [ROOT] ++ P) ++ plus_of rs ++ (R ++ [ROOT] ++ Q) ++ s2l ")/" ++ E).
  { change (s2l "+-") with [43; 45]. change (s2l "(") with [40]. cbn [app]. set (U := (minus_of ls ++ L) ++ ROOT :: P).
    change (40 :: U ++ ?x) with ((40 :: U) ++ x).
    rewrite str_replace_app.
    2:{ intros [I|I]; [discriminate I|]. subst U. apply in_app_or in I as [I|I]; [apply in_app_or in I as [I|I]; [apply minus_chars in I; lia|apply CL in I; lia]|].
        destruct I as [I|I]; [discriminate I|apply C1 in I; lia]. }
    cbn [app]. do 2 f_equal. unfold minus_of, plus_of. destruct (rs <? 0).
    - change (s2l "+" ++ ((s2l "-" ++ R) ++ ?x) ++ ?y) with ([43; 45] ++ (R ++ x) ++ y). rewrite str_replace_hit. rewrite str_replace_none by exact TAIL. reflexivity.
    - cbn [app] in *. change (s2l "+") with [43]. cbn [app]. rewrite str_replace_miss.
      + rewrite str_replace_none by exact TAIL. reflexivity.
      + destruct R as [|c r] eqn:QR; [reflexivity|]. cbn. specialize (CR c (or_introl eq_refl)). destruct c; try reflexivity. lia. }
  rewrite EQ. rewrite !without_app. unfold rad_text, long_form, term_text. cbn [r_fst r_snd r_den t_sign t_scal t_rad]. fold L R P Q E.
  change (without ignored (s2l "(")) with (@nil Z). change (without ignored (s2l ")/")) with (s2l "/"). change (without ignored [ROOT]) with [8730].
  rewrite !without_all; try (intros c I; first [apply CL in I|apply CR in I|apply C1 in I|apply C2 in I|apply C3 in I|apply minus_chars in I]; lia).
  - rewrite <- !app_assoc. reflexivity.
  - intros c I. unfold plus_of in I. destruct (rs <? 0); destruct I as [I|[]]; rewrite <- I; cbn; auto.
Qed.
Lemma scalar_of sg a : (forall v, signed sg v = if a <? 0 then - v else v) -> signed sg (match digits (Z.abs a) with [] => 1 | ds => number ds end) = a.
Proof.
  intros G. rewrite G. pose proof (digits_nonempty (Z.abs a) ltac:(lia)) as N. pose proof (number_digits (Z.abs a) ltac:(lia)) as V.
  destruct (digits (Z.abs a)); [contradiction|]. rewrite V. destruct (a <? 0) eqn:S; lia.
Qed.
Theorem C103_long_reload : forall ls lr rs rr e d, in_range ls lr rs rr e -> (lr = rr -> Z.abs (ls + rs) < 1000) ->
  length d = 9%nat -> wf_bytes d ->
  let main := if lr <? rr then rs else if lr =? rr then ls + rs else ls in
  (e = 0 \/ main = 0 -> radical_load (radical_long_show ls lr rs rr e) (Buf true d) = (Buf true d, oerr ValueError)) /\
  (e <> 0 -> main <> 0 ->
   exists d' ls' lr' rs' rr' e', radical_load (radical_long_show ls lr rs rr e) (Buf true d) = (Buf true d', oret tt) /\
     radical_comps (Buf true d') = Ok (ls', lr', rs', rr', e') /\ same_radical ls lr rs rr e ls' lr' rs' rr' e' /\ 0 < e').
Proof.
  intros ls lr rs rr e d (b1 & b2 & b3 & b4 & b5) BS LD WD main.
  pose proof (long_written ls lr rs rr e ltac:(lia) ltac:(lia) ltac:(lia)) as T. set (r := long_form ls lr rs rr e) in *.
  destruct (signs_ok ls) as (A1 & _ & _ & A2 & _). destruct (signs_ok rs) as (_ & A3 & A4 & _ & A5).
  assert (W : rad_wf r).
  { split; [|split].
    - split; [exact A1|]. split; [apply digits_ok; lia|]. split; [now left|]. split; [apply digits_ok; lia|apply digits_nonempty; lia].
    - split; [|split; [exact A4|left; discriminate]]. split; [exact A3|]. split; [apply digits_ok; lia|]. split; [now left|]. split; [apply digits_ok; lia|apply digits_nonempty; lia].
    - split; [now left|]. split; [apply digits_ok; lia|]. split; [apply digits_nonempty; lia|]. intros X. discriminate X. }
  assert (V1 : scalar (r_fst r) = ls) by now apply scalar_of. assert (V3 : scalar2 r = rs) by now apply scalar_of.
  assert (V2 : radicand (r_fst r) = lr) by (apply number_digits; lia). assert (V4 : radicand2 r = rr) by (apply number_digits; lia).
  assert (V5 : denominator r = e) by (apply number_digits; lia).
  assert (V6 : left_part r = main) by (unfold left_part, main; now rewrite V1, V2, V3, V4). split.
  - intros H. apply (C31_radical_refused r); auto. now rewrite V5, V6.
  - intros E0 M0. destruct (C31_radical_value r (radical_long_show ls lr rs rr e) d W T LD WD) as (d' & ls' & lr' & rs' & rr' & e' & H1 & _ & H2 & H3 & H4 & H5 & H6 & H7 & H8 & _);
      rewrite ?V1, ?V2, ?V3, ?V4, ?V5, ?V6 in *; auto; try lia.
    exists d', ls', lr', rs', rr', e'. split; [exact H1|]. split; [unfold radical_comps; rewrite H2, H3, H4, H5, H6; reflexivity|]. split; [exact H7|apply H8].
Qed.
Print Assumptions C103_long_reload.
(** A number equal to 0 has a text that does not load; the text of a sum of two
    integers does not load either although the long one does. *)
Theorem C103_zero_refuted : exists d d', let b := Buf true d in
  radical_load (s2l "5" ++ [8730] ++ s2l "0+3" ++ [8730] ++ s2l "0") (Buf true d') = (b, oret tt) /\ radical_string b = Ok (s2l "0") /\
  radical_load (s2l "0") (Buf true d') = (Buf true d', oerr ValueError).
Proof. eexists. exists slot0. split; [vm_compute; reflexivity|]. split; vm_compute; reflexivity. Qed.
Print Assumptions C103_zero_refuted.
Theorem C103_sum_refuted : exists d d', radical_string (Buf true d) = Ok (s2l "(2+3)/5") /\
  radical_load (s2l "(2+3)/5") (Buf true slot0) = (Buf true slot0, oerr ValueError) /\
  radical_long (Buf true d) = Ok (s2l "(2" ++ [8730] ++ s2l "1+3" ++ [8730] ++ s2l "1)/5") /\
  radical_load (s2l "(2" ++ [8730] ++ s2l "1+3" ++ [8730] ++ s2l "1)/5") (Buf true slot0) = (Buf true d', oret tt).
Proof. exists (rad_buf 28 0 5 2 3 1 1). eexists. split; [vm_compute; reflexivity|]. split; [vm_compute; reflexivity|]. split; vm_compute; reflexivity. Qed.
Print Assumptions C103_sum_refuted.
Example C103_example :
  radical_string (Buf true (rad_buf 28 2 4 3 12 7 5)) = Ok (s2l "(3" ++ [8730] ++ s2l "7-12" ++ [8730] ++ s2l "5)/4") /\
  radical_long (Buf true (rad_buf 28 2 4 3 12 7 5)) = Ok (radical_long_show 3 7 (-12) 5 4) /\
  radical_comps (Buf true (rad_buf 28 2 4 3 12 7 5)) = Ok (3, 7, -12, 5, 4) /\
  in_range 3 7 (-12) 5 4 /\ radical_load (radical_show 3 7 (-12) 5 4) (Buf true slot0) = (Buf true (rad_buf 0 2 4 3 12 7 5), oret tt) /\
  radical_show 1 2 0 0 1 = [8730] ++ s2l "2" /\ radical_show (-1) 2 0 0 3 = s2l "-1" ++ [8730] ++ s2l "2/3" /\ radical_show 2 1 (-3) 1 1 = s2l "(2-3)/1".
Proof. repeat split; try (vm_compute; reflexivity); lia. Qed.

(** ** C104: fractions and fractional multiples of pi *)
(** What is assumed of Python's [Fraction(text)]: the text of an integer or of a
    fraction in lowest terms stands for it. *)
Definition reads_fractions (fp : str -> result (Z * Z)) : Prop :=
  forall n d, 1 <= d <= 10000 -> Z.gcd n d = 1 -> Z.abs n < 10 ^ 9 -> fp (fraction_show (n, d)) = Ok (n, d).
Lemma int_chars n c : In c (str_of_int n) -> c = 45 \/ 48 <= c <= 57.
Proof.
  rewrite str_of_int_text. intros I. apply in_app_or in I as [I|I]; [left; now apply minus_chars in I|right]. apply number_chars in I; [exact I|lia].
Qed.
Lemma show_chars n d c : In c (fraction_show (n, d)) -> c = 45 \/ 47 <= c <= 57.
Proof.
  unfold fraction_show. cbn [fst snd]. intros I. apply in_app_or in I as [I|I]; [apply int_chars in I; lia|].
  destruct (d =? 1); [destruct I|]. destruct I as [I|I]; [cbn in I; lia|]. change (In c (str_of_int d)) in I. apply int_chars in I. lia.
Qed.
Lemma squash_show n d : squash (fraction_show (n, d)) = fraction_show (n, d).
Proof.
  apply squash_id. apply Forall_forall. intros c I. apply show_chars in I. unfold is_space.
  lia.
Qed.
Lemma limit_form M N D : 1 <= M -> 0 < D -> Z.gcd N D = 1 -> forall r s, limit_denominator M (N, D) = (r, s) -> 1 <= s <= M /\ Z.gcd r s = 1.
Proof.
  intros HM HD G r s E. destruct (Z.le_gt_cases D M) as [L|L].
  - unfold limit_denominator in E. replace (D <=? M) with true in E by lia. injection E as <- <-. split; [lia|exact G].
  - apply limit_closest in E as (A & B & _); auto.
Qed.
Lemma ratio_form x r s : limit_denominator 10000 (dec_ratio x) = (r, s) -> 1 <= s <= 10000 /\ Z.gcd r s = 1.
Proof.
  destruct x as [neg c e]. destruct (dec_ratio_scaled (Z.abs e) neg c e ltac:(lia) ltac:(lia)) as (N & D & -> & P & G & _).
  apply limit_form; auto. lia.
Qed.
Theorem C104_fraction_reload : forall fp b slot n d, reads_fractions fp -> length slot = 9%nat -> wf_bytes slot ->
  real_fraction b = Ok (n, d) -> Z.abs n < 10 ^ 5 * d ->
  exists t b', fraction_string b = Ok t /\ fraction_load fp t (Buf true slot) = (b', oret tt) /\
    real_fraction b' = Ok (n, d) /\ fraction_string b' = Ok t.
Proof.
  intros fp b slot n d FP L W R B. assert (D : 1 <= d <= 10000 /\ Z.gcd n d = 1).
  { unfold real_fraction in R. destruct (real_decimal b) as [x|]; [|discriminate R]. injection R as R. now apply ratio_form in R. }
  destruct D as [D G]. destruct (C30_fraction_roundtrip n d slot D G B L W) as (b' & H1 & H2).
  exists (fraction_show (n, d)), b'. unfold fraction_string. rewrite R, H2. split; [reflexivity|]. split; [|split; reflexivity].
  unfold fraction_load. rewrite squash_show, FP by (auto; lia). exact H1.
Qed.
Print Assumptions C104_fraction_reload.
(** The text of a fractional multiple of pi. *)
Lemma pi_text n d : str_replace (s2l "/") ([960] ++ s2l "/") (fraction_show (n, d)) =
  if d =? 1 then str_of_int n else str_of_int n ++ [960] ++ s2l "/" ++ str_of_int d.
Proof.
  assert (NI : forall k, ~ In 47 (str_of_int k)) by (intros k I; apply int_chars in I; lia).
  unfold fraction_show. cbn [fst snd]. change (s2l "/") with [47]. destruct (d =? 1).
  - rewrite app_nil_r. now apply str_replace_none.
  - rewrite str_replace_app by apply NI. f_equal. rewrite str_replace_hit. rewrite str_replace_none by apply NI. reflexivity.
Qed.
Lemma no_pi n : ~ In 960 (str_of_int n).
Proof. intros I. apply int_chars in I. lia. Qed.
Lemma pi_loads n d slot : 1 <= d <= 10000 -> Z.gcd n d = 1 -> Z.abs n < 10 ^ 4 * d -> length slot = 9%nat -> wf_bytes slot ->
  exists b, load_fraction n d (Buf true slot) = (b, oret tt) /\ pi_fraction b = Ok (n, d).
Proof.
  intros D G B L W. destruct (slot9 slot L W) as (c0 & c1 & r & -> & Lr & B0).
  destruct (Z.eq_dec n 0) as [->|Nn].
  { assert (d = 1) as -> by (rewrite Z.gcd_0_l in G; lia). unfold load_fraction. change (dec_str (dec_div 0 1)) with (s2l "0").
    destruct (real_load_spec (Lit [] [0] None None) (s2l "0") c0 c1 r) as [R _]; auto.
    { unfold lit_wf. cbn. repeat apply conj; auto. constructor; [unfold digit; lia|constructor]. }
    rewrite R by reflexivity. exists (stored c0 false 128 0). split; [reflexivity|].
    unfold pi_fraction, pi_decimal. rewrite real_decimal_stored by (auto; unfold is_byte; lia). reflexivity. }
  destruct (fraction_roundtrip n d c0 c1 r D G ltac:(lia) B0 Lr) as (b & H1 & _). unfold load_fraction in *.
  destruct (dec_div_rel n d Nn ltac:(lia) ltac:(lia)) as (c & e & E & C & Le & CL). rewrite E in *.
  destruct (dec_str_literal (Dec (n <? 0) c e)) as (l & WL & T & Sq & LN & LC & LS); [cbn; lia|]. rewrite T in *. cbn [d_neg d_coef d_exp] in *.
  destruct (real_load_spec l (lit_text l) c0 c1 r WL Sq Lr B0) as [_ R]. destruct R as (m & x & TR & R); [lia|]. rewrite LC, LS, LN in *.
  pose proof (truncated14_exact _ _ _ _ c 0 TR ltac:(lia) ltac:(lia) ltac:(lia)) as SE. destruct TR as [TM _].
  rewrite R in H1. destruct (is_byteb x) eqn:BX; [|discriminate H1]. apply is_byteb_spec in BX.
  exists (stored c0 (n <? 0) x m). split; [exact R|]. unfold pi_fraction, pi_decimal. rewrite real_decimal_stored by (auto; lia). cbn [rbind].
  replace (m =? 0) with false by lia. cbn [negb]. rewrite andb_true_r. f_equal. set (ex := x - 141) in *.
  assert (EX : -40 <= ex).
  { destruct (Z.le_gt_cases (-40) ex) as [|X]; auto. exfalso. rewrite (scale_eq _ _ _ _ ex) in SE by lia. rewrite Z.sub_diag in SE. change (10 ^ 0) with 1 in SE.
    assert (T14 : 10 ^ 14 <= 10 ^ (e - ex)) by (apply Z.pow_le_mono_r; lia). clear - SE T14 C TM. nia. }
  apply pi_recovers; auto; try lia. intros K HK. specialize (CL K ltac:(lia)).
  replace (scaled K m ex) with (scaled K c e); [exact CL|]. unfold scaled. rewrite (scale_eq _ _ _ _ (- K)) in SE by lia.
  replace (K + e) with (e - - K) by lia. replace (K + ex) with (ex - - K) by lia. now symmetry.
Qed.
(** Whatever the payload: unless the fraction is an integer other than 0, the
    text reloads as a multiple of pi with the same fraction. *)
Theorem C104_pi_reload : forall fp b slot n d, reads_fractions fp -> length slot = 9%nat -> wf_bytes slot ->
  pi_fraction b = Ok (n, d) -> Z.abs n < 10 ^ 4 * d -> d <> 1 \/ n = 0 ->
  exists t b', pi_fraction_string b = Ok t /\ pi_fraction_load fp t (Buf true slot) = (b', oret tt) /\
    pi_fraction b' = Ok (n, d) /\ pi_fraction_string b' = Ok t.
Proof.
  intros fp b slot n d FP L W R B NT. assert (D : 1 <= d <= 10000 /\ Z.gcd n d = 1).
  { unfold pi_fraction in R. destruct (pi_decimal b) as [x|]; [|discriminate R]. injection R as R. now apply ratio_form in R. }
  destruct D as [D G]. destruct (pi_loads n d slot D G B L W) as (b' & H1 & H2).
  eexists _, b'. unfold pi_fraction_string. rewrite R, H2. cbn [rbind]. split; [reflexivity|]. split; [|split; reflexivity].
  rewrite pi_text. unfold pi_fraction_load. destruct NT as [NT| ->].
  - replace (d =? 1) with false by lia.
    assert (M : memb 960 (str_of_int n ++ [960] ++ s2l "/" ++ str_of_int d) = true) by (apply memb_spec; apply in_or_app; right; now left).
    rewrite M, orb_true_r. rewrite str_replace_app by apply no_pi. change ([960] ++ s2l "/" ++ str_of_int d) with ([960] ++ (s2l "/" ++ str_of_int d)).
    rewrite str_replace_hit. cbn [app]. rewrite str_replace_none by (intros [I|I]; [discriminate I|now apply no_pi in I]).
    replace (str_of_int n ++ s2l "/" ++ str_of_int d) with (fraction_show (n, d)) by (unfold fraction_show; cbn [fst snd]; replace (d =? 1) with false by lia; reflexivity).
    unfold fraction_load. rewrite squash_show, FP by (auto; lia). exact H1.
  - assert (d = 1) as -> by (rewrite Z.gcd_0_l in G; lia). change (1 =? 1) with true. cbv iota. change (str_of_int 0) with (s2l "0").
    change (leqb (s2l "0") (s2l "0") || memb 960 (s2l "0")) with true. cbv iota. change (str_replace [960] [] (s2l "0")) with (fraction_show (0, 1)).
    unfold fraction_load. rewrite squash_show, FP by (auto; lia). exact H1.
Qed.
Print Assumptions C104_pi_reload.
(** An integer other than 0 is shown without "pi", and that text is refused. *)
Theorem C104_pi_integer_refuted : forall fp b slot n, pi_fraction b = Ok (n, 1) -> n <> 0 ->
  pi_fraction_string b = Ok (str_of_int n) /\ pi_fraction_load fp (str_of_int n) (Buf true slot) = (Buf true slot, oerr ValueError).
Proof.
  intros fp b slot n R N. unfold pi_fraction_string. rewrite R. cbn [rbind]. rewrite pi_text. split; [reflexivity|].
  unfold pi_fraction_load. destruct (leqb (str_of_int n) (s2l "0")) eqn:E.
  - exfalso. apply leqb_iff in E. destruct (Z.lt_ge_cases n 0) as [S|S].
    + rewrite str_of_int_text in E. unfold minus_of in E. replace (n <? 0) with true in E by lia. discriminate E.
    + pose proof (parse_str_of_int n S) as P. rewrite E in P. assert (Q : parse_int 10 (s2l "0") = Ok 0) by reflexivity. congruence.
  - destruct (memb 960 (str_of_int n)) eqn:M; [|reflexivity]. apply memb_spec in M. now apply no_pi in M.
Qed.
Print Assumptions C104_pi_integer_refuted.
(** A parser with the assumed property. *)
Definition fraction1 (s : str) : result (Z * Z) :=
  match split_on 47 s with
  | [a] => match parse_int 10 a with Ok n => Ok (n, 1) | Err e => Err e end
  | _ => fraction0 s
  end.
Example C104_example : reads_fractions fraction1 /\
  real_fraction (Buf true [152; 128; 49; 66; 133; 113; 66; 133; 113]) = Ok (-22, 7) /\
  fraction_string (Buf true [152; 128; 49; 66; 133; 113; 66; 133; 113]) = Ok (s2l "-22/7") /\
  pi_fraction (Buf true [161; 128; 49; 66; 133; 113; 66; 133; 113]) = Ok (-22, 7) /\
  pi_fraction_string (Buf true [161; 128; 49; 66; 133; 113; 66; 133; 113]) = Ok (s2l "-22" ++ [960] ++ s2l "/7") /\
  pi_fraction_load fraction1 (s2l "-22" ++ [960] ++ s2l "/7") (Buf true (33 :: zeros 8)) = (Buf true [161; 128; 49; 66; 133; 113; 66; 133; 113], oret tt) /\
  pi_fraction (Buf true [33; 128; 48; 0; 0; 0; 0; 0; 0]) = Ok (3, 1).
Proof.
  split; [|repeat split; vm_compute; reflexivity].
  assert (PI : forall k, parse_int 10 (str_of_int k) = Ok k).
  { intros k. rewrite str_of_int_text. pose proof (parse_minus (minus_of k) (digits (Z.abs k)) (digits_ok (Z.abs k) ltac:(lia)) (digits_nonempty (Z.abs k) ltac:(lia))) as P.
    rewrite number_digits in P by lia. destruct (signs_ok k) as (_ & _ & _ & S & _). rewrite S in P.
    assert (Q : minus (minus_of k) = minus_of k) by (unfold minus_of; destruct (k <? 0); reflexivity). rewrite Q in P. rewrite P. f_equal. destruct (k <? 0) eqn:Z; lia. }
  assert (NI : forall k, ~ In 47 (str_of_int k)) by (intros k I; apply int_chars in I; lia).
  intros n d D G _. unfold fraction1, fraction_show. cbn [fst snd]. destruct (d =? 1) eqn:E.
  - rewrite app_nil_r, split_on_none by apply NI. rewrite PI. do 2 f_equal. lia.
  - change (s2l "/") with [47]. cbn [app]. rewrite split_on_app by apply NI. rewrite split_on_none by apply NI. unfold fraction0.
    rewrite split_on_app by apply NI. rewrite split_on_none by apply NI. rewrite !PI. replace (d =? 0) with false by lia. rewrite G, !Z.div_1_r. reflexivity.
Qed.
