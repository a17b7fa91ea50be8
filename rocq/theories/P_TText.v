(** Texts in the format "t", and whether they load (C119-C122). *)
From Verif Require Import L_Base M_Data M_Numeric M_Class M_Var M_Real M_Complex M_List M_Text M_CText M_TText S_Data L_Data S_Var L_Var S_Real L_Real L_Frac L_Radical P_Real
  S_Complex L_Complex L_Kinds P_Kinds L_Pi P_Text P_Var S_List L_List P_List P_ListText S_CText P_CText.

(** ** Characters *)
Lemma reduce_chars p c : In c (radical_reduce p) -> In c p.
Proof.
  unfold radical_reduce. destruct (starts_with _ p); [intros []|]. destruct (ends_with _ p); [intros []|].
  destruct (ends_with _ p); [intros I; rewrite <- (firstn_skipn (length p - 2) p); apply in_or_app; now left|]. destruct (starts_with _ p); [|auto]. destruct p; [auto|]. intros I. now right.
Qed.
Lemma radical_chars ls lr rs rr e c : In c (radical_show ls lr rs rr e) -> 40 <= c <= 41 \/ c = 43 \/ c = 45 \/ 47 <= c <= 57 \/ c = ROOT.
Proof.
  intros I. unfold radical_show in I. apply replace_back in I as [I|I]; [|cbn in I; lia].
  assert (T : forall a b, In c (radical_reduce (radical_term a b)) -> c = 45 \/ 48 <= c <= 57 \/ c = ROOT).
  { intros a b J. apply reduce_chars in J. unfold radical_term in J. apply in_app_or in J as [J|J]; [apply int_chars in J; lia|].
    destruct J as [J|J]; [auto|]. apply int_chars in J. lia. }
  assert (DE : In c (s2l "/" ++ str_of_int e) -> c = 45 \/ 47 <= c <= 57) by (intros J; apply in_app_or in J as [J|J]; [cbn in J; lia|apply int_chars in J; lia]).
  specialize (T ls lr) as T1. specialize (T rs rr) as T2.
  set (l := radical_reduce (radical_term ls lr)) in *. set (r := radical_reduce (radical_term rs rr)) in *.
  clearbody l r. clear T. destruct l as [|l0 l], r as [|r0 r].
  - cbn in I. lia.
  - destruct (e =? 1); [specialize (T2 I); lia|]. apply in_app_or in I as [I|I]; [specialize (T2 I); lia|specialize (DE I); lia].
  - destruct (e =? 1); [specialize (T1 I); lia|]. apply in_app_or in I as [I|I]; [specialize (T1 I); lia|specialize (DE I); lia].
  - apply in_app_or in I as [I|I]; [cbn in I; lia|]. apply in_app_or in I as [I|I]; [specialize (T1 I); lia|]. apply in_app_or in I as [I|I]; [cbn in I; lia|].
    apply in_app_or in I as [I|I]; [specialize (T2 I); lia|]. apply in_app_or in I as [I|I]; [cbn in I; lia|specialize (DE I); lia].
Qed.
Lemma bcd_nonneg d : wf_bytes d -> forall a, 0 <= a -> 0 <= fold_left (fun v b => v * 100 + bcd_byte b) d a.
Proof.
  intros W. induction d as [|x d IH]; intros a A; [exact A|]. apply Forall_cons_iff in W as (B & W). cbn [fold_left]. apply (IH W).
  unfold bcd_byte, is_byte in *. lia.
Qed.
Lemma rstrip_chars cs s c : In c (rstrip cs s) -> In c s.
Proof.
  unfold rstrip. intros I. apply in_rev in I. apply in_rev. revert I. generalize (rev s) as t. induction t as [|y t IH]; [intros []|]. cbn [lstrip].
  destruct (memb y cs); [intros I; right; now apply IH|auto].
Qed.
Lemma fixed_chars d c : 0 <= d_coef d -> In c (dec_fixed14 d) -> c = 45 \/ c = 46 \/ 48 <= c <= 57.
Proof.
  intros N. unfold dec_fixed14. cbv zeta. set (n := if -14 <=? d_exp d then _ else _).
  assert (NN : 0 <= n). { unfold n. destruct (-14 <=? d_exp d) eqn:E; [pose proof (pow10_pos (d_exp d + 14) ltac:(lia)); nia|]. apply half_even_nonneg; auto. apply pow10_pos. lia. }
  assert (D : forall k, 0 <= k -> In c (map char_of_digit (digits k)) -> 48 <= c <= 57) by (intros k K I; rewrite text_digits in I; now apply number_chars in I).
  assert (P : 0 < 10 ^ 14) by reflexivity. intros I.
  apply in_app_or in I as [I|I]; [destruct (d_neg d); [destruct I as [I|[]]; left; now symmetry|destruct I]|].
  apply in_app_or in I as [I|I]; [apply D in I; [auto|apply Z.div_pos; lia]|].
  apply in_app_or in I as [I|I]; [destruct I as [I|[]]; right; left; now symmetry|].
  apply in_app_or in I as [I|I]; [apply repeat_spec in I; lia|]. apply D in I; [auto|]. apply Z.mod_pos_bound. lia.
Qed.
(** The characters of the text of each kind of number. *)
Definition may_show (c : cls) (x : Z) : Prop :=
  x = 45 \/ 48 <= x <= 57 \/
  match c with
  | KReal | KUndefReal => x = 46
  | KRealPi => x = 46 \/ x = 960
  | KRealFraction => x = 47
  | KRealPiFraction => x = 47 \/ x = 960
  | KRealRadical => x = 40 \/ x = 41 \/ x = 43 \/ x = 47 \/ x = ROOT
  | _ => False
  end.
Lemma decimal_nonneg b d : wf_bytes (b_data b) -> real_decimal b = Ok d -> 0 <= d_coef d.
Proof.
  intros W. unfold real_decimal. destruct (get_sign b) as [s|]; [|discriminate]. cbn [rbind]. intros H. injection H as <-.
  assert (M : 0 <= get_mantissa b). { unfold get_mantissa, bcd_get. apply bcd_nonneg; [|lia]. unfold view_get, py_slice. apply wf_firstn, wf_skipn. exact W. }
  unfold dec_fix. cbn [d_coef d_exp d_neg]. revert M. generalize (get_mantissa b) as m. intros m M. cbv zeta. destruct (_ <=? 0) eqn:K; [exact M|].
  assert (H : 0 <= half_even m (10 ^ (ndigits m - 14))) by (apply half_even_nonneg; [apply pow10_pos; lia|exact M]).
  destruct (_ <? _); cbn [d_coef]; [exact H|]. apply Z.div_pos; [exact H|reflexivity].
Qed.
Lemma text_chars c b s : wf_bytes (b_data b) -> real_text c b = Ok s -> forall x, In x s -> may_show c x.
Proof.
  intros W H x I.
  assert (DE : forall d, real_decimal b = Ok d -> In x (rstrip (s2l ".") (rstrip (s2l "0") (dec_fixed14 d))) -> x = 45 \/ x = 46 \/ 48 <= x <= 57).
  { intros d E J. apply rstrip_chars, rstrip_chars in J. apply fixed_chars in J; [exact J|]. now apply (decimal_nonneg b). }
  assert (R : real_string b = Ok s -> x = 45 \/ x = 46 \/ 48 <= x <= 57).
  { unfold real_string. destruct (real_decimal b) as [d|] eqn:E; [|discriminate]. cbn [rbind]. destruct (_ =? 0); intros G; injection G as <-; [cbn in I; lia|]. now apply (DE d). }
  destruct c; try discriminate H; cbn [real_text] in H; unfold may_show.
  - specialize (R H). lia.
  - specialize (R H). lia.
  - unfold fraction_string in H. destruct (real_fraction b) as [[n k]|]; [|discriminate H]. cbn [rbind] in H. injection H as <-. apply show_chars in I. lia.
  - unfold radical_string in H. destruct (radical_comps b) as [[[[[ls lr] rs] rr] e]|]; [|discriminate H]. cbn [rbind] in H. injection H as <-. apply radical_chars in I. unfold ROOT in *. lia.
  - unfold real_pi_string in H. destruct (real_decimal b) as [d|] eqn:E; [|discriminate H]. cbn [rbind] in H. destruct (_ =? 0); injection H as <-; [cbn in I; lia|].
    apply in_app_or in I as [I|I]; [specialize (DE d eq_refl I); lia|]. destruct I as [I|[]]. lia.
  - unfold pi_fraction_string in H. destruct (pi_fraction b) as [[n k]|]; [|discriminate H]. cbn [rbind] in H. injection H as <-. apply replace_back in I as [I|I]; [apply show_chars in I; lia|].
    cbn in I. lia.
Qed.

(** ** Refusal: a text with the letter n *)
Lemma letter_parse s : In 110 s -> parse_int 10 s = Err ValueError.
Proof.
  intros I. assert (G : forall s a p, In 110 s -> parse_digits 10 s a p = None).
  { clear s I. induction s as [|y s IH]; intros a p I; [destruct I|]. cbn [parse_digits]. destruct I as [->|I]; [reflexivity|].
    destruct (y =? 95); [destruct p; auto|]. destruct (digit_val y); [|reflexivity]. destruct (_ <? _); auto. }
  unfold parse_int. destruct s as [|y s]; [destruct I|].
  destruct (Z.eqb_spec y 45) as [->|]; [destruct I as [I|I]; [discriminate I|now rewrite G]|].
  destruct (Z.eqb_spec y 43) as [->|]; [destruct I as [I|I]; [discriminate I|now rewrite G]|]. now rewrite G.
Qed.
Lemma radical_parse_letter s : In 110 s -> radical_parse s = Err ValueError.
Proof.
  intros I. destruct (radical_parse s) as [v|x] eqn:R; [exfalso|f_equal; now apply (radical_errs s)]. revert R.
  unfold radical_parse. set (s0 := lstrip _ _).
  assert (I0 : In 110 s0).
  { unfold s0. apply in_lstrip; [vm_compute; intuition discriminate|]. unfold replacer. cbn [fold_left fst snd].
    repeat (apply in_replace; [vm_compute; intuition discriminate|]). apply in_squash; [reflexivity|exact I]. }
  clearbody s0. destruct (memb 46 s0); [congruence|]. cbv zeta.
  set (s1 := if memb 43 _ then _ else _).
  assert (I1 : In 110 s1).
  { unfold s1. set (s2 := if memb ROOT _ then _ else _). assert (I2 : In 110 s2).
    { unfold s2. set (s3 := if memb 47 s0 then _ else _). assert (I3 : In 110 s3) by (unfold s3; destruct (memb 47 s0); [exact I0|apply in_or_app; now left]).
      clearbody s3. destruct (memb ROOT s3); [exact I3|]. apply in_replace; [vm_compute; intuition discriminate|].
      do 3 (apply in_or_app; right). exact I3. }
    clearbody s2. destruct (memb 43 s2); [exact I2|]. apply in_replace; [vm_compute; intuition discriminate|exact I2]. }
  clearbody s1. clear I0.
  destruct (in_split 110 47 s1) as (p & P & Q); [lia|exact I1|].
  destruct (split_on 47 s1) as [|top [|bot [|? ?]]]; try congruence.
  destruct (split_on 43 top) as [|tl [|tr [|? ?]]] eqn:S; try congruence.
  set (tl' := if memb ROOT tl then _ else _). set (tr' := if memb ROOT tr then _ else _).
  destruct (split_on ROOT tl') as [|ls [|lr [|? ?]]] eqn:SL; try congruence.
  destruct (split_on ROOT tr') as [|rs [|rr [|? ?]]] eqn:SR; try congruence.
  assert (OO : forall x, In 110 x -> In 110 (or_one x)) by (intros x J; unfold or_one; destruct (rstrip _ x); [apply in_or_app; now left|exact J]).
  destruct P as [->|[->|[]]].
  - destruct (in_split 110 43 p) as (q & P & Q'); [lia|exact Q|]. rewrite S in P.
    assert (C : In 110 ls \/ In 110 lr \/ In 110 rs \/ In 110 rr).
    { destruct P as [<-|[<-|[]]].
      - assert (J : In 110 tl') by (unfold tl'; destruct (memb ROOT tl); [exact Q'|apply in_or_app; now left]).
        destruct (in_split 110 ROOT tl') as (r & P & Q2); [discriminate|exact J|]. rewrite SL in P. destruct P as [<-|[<-|[]]]; auto.
      - assert (J : In 110 tr') by (unfold tr'; destruct (memb ROOT tr); [exact Q'|apply in_or_app; now left]).
        destruct (in_split 110 ROOT tr') as (r & P & Q2); [discriminate|exact J|]. rewrite SR in P. destruct P as [<-|[<-|[]]]; auto. }
    destruct (parse_int 10 (or_one ls)) eqn:E1; cbn [rbind]; [|congruence].
    destruct (parse_int 10 lr) eqn:E2; cbn [rbind]; [|congruence].
    destruct (parse_int 10 (or_one rs)) eqn:E3; cbn [rbind]; [|congruence].
    destruct (parse_int 10 rr) eqn:E4; cbn [rbind]; [|congruence].
    destruct C as [C|[C|[C|C]]]; [apply OO in C| |apply OO in C|]; apply letter_parse in C; congruence.
  - destruct (parse_int 10 (or_one ls)) eqn:E1; cbn [rbind]; [|congruence].
    destruct (parse_int 10 lr) eqn:E2; cbn [rbind]; [|congruence].
    destruct (parse_int 10 (or_one rs)) eqn:E3; cbn [rbind]; [|congruence].
    destruct (parse_int 10 rr) eqn:E4; cbn [rbind]; [|congruence].
    destruct (_ || _); [congruence|]. destruct (if _ <? _ then _ else _) as [[[? ?] ?] ?].
    rewrite letter_parse; [cbn [rbind]; congruence|]. apply in_lstrip; [vm_compute; intuition discriminate|exact Q].
Qed.


(** ** The text without root signs and bars *)
Definition tilde (c : Z) : Z := if c =? 45 then 126 else c.
Lemma replace_map a b s : str_replace [a] [b] s = map (fun c => if c =? a then b else c) s.
Proof.
  unfold str_replace. induction s as [|x s IH]; [reflexivity|]. cbn [str_replace_aux starts_with map]. rewrite andb_true_r, Z.eqb_sym.
  destruct (x =? a); cbn [app length pred]; now rewrite IH.
Qed.
Lemma replace_flat a r s : str_replace [a] r s = flat_map (fun c => if c =? a then r else [c]) s.
Proof.
  unfold str_replace. induction s as [|x s IH]; [reflexivity|]. cbn [str_replace_aux starts_with flat_map]. rewrite andb_true_r, Z.eqb_sym.
  destruct (x =? a); cbn [app length pred]; now rewrite IH.
Qed.
Lemma sqrt_none s : ~ In ROOT s -> sqrt_calls false s = s.
Proof.
  induction s as [|c s IH]; intros N; [reflexivity|]. cbn [sqrt_calls andb app]. destruct (Z.eqb_spec c ROOT) as [->|]; [exfalso; apply N; now left|].
  rewrite IH; [reflexivity|]. intros I. apply N. now right.
Qed.
Lemma accessible_plain s : ~ In ROOT s -> ~ In 47 s -> accessible s = squash (map tilde s).
Proof.
  intros R B. unfold accessible, replacer. cbn [fold_left fst snd]. change (s2l "-") with [45]. change (s2l "~") with [126]. change (s2l "/") with [47].
  rewrite replace_map. fold tilde. assert (T : forall x, x <> 45 -> x <> 126 -> ~ In x s -> ~ In x (map tilde s)).
  { intros x X Y N I. apply in_map_iff in I as (y & E & I). unfold tilde in E. destruct (y =? 45); [congruence|subst y; contradiction]. }
  rewrite str_replace_none by (apply T; [lia|lia|exact B]). rewrite sqrt_none; [reflexivity|]. apply T; [discriminate|discriminate|exact R].
Qed.
Lemma squash_tilde s : squash (map tilde s) = map tilde (squash s).
Proof.
  induction s as [|c s IH]; [reflexivity|]. unfold squash in *. cbn [map filter]. assert (E : is_space (tilde c) = is_space c).
  { unfold tilde. destruct (Z.eqb_spec c 45) as [->|]; reflexivity. }
  rewrite E. destruct (negb (is_space c)); cbn [map]; now rewrite IH.
Qed.
Lemma lower_tilde s : str_replace (s2l "~") (s2l "-") (lower (map tilde s)) = str_replace (s2l "~") (s2l "-") (lower s).
Proof.
  change (s2l "~") with [126]. change (s2l "-") with [45]. rewrite !replace_map. unfold lower. rewrite !map_map. apply map_ext. intros c. unfold tilde.
  destruct (Z.eqb_spec c 45) as [->|]; reflexivity.
Qed.
Lemma squash_squash s : squash (squash s) = squash s.
Proof. unfold squash. induction s as [|c s IH]; [reflexivity|]. cbn [filter]. destruct (negb (is_space c)) eqn:E; [|exact IH]. cbn [filter]. rewrite E. now rewrite IH. Qed.
(** The text of a decimal may be written with "~". *)
Lemma parse_tilde s : (squash s = [] -> s = []) -> real_parse (squash (map tilde s)) = real_parse s.
Proof.
  intros N. destruct s as [|c s]; [reflexivity|]. rewrite squash_tilde. destruct (squash (c :: s)) as [|d r] eqn:Q; [specialize (N eq_refl); discriminate N|].
  cbn [map]. unfold real_parse. cbv zeta. unfold replacer. cbn [fold_left fst snd]. change (tilde d :: map tilde r) with (map tilde (d :: r)). rewrite squash_tilde.
  assert (S : squash (d :: r) = d :: r) by (rewrite <- Q; apply squash_squash). rewrite lower_tilde, S, Q. reflexivity.
Qed.
Lemma printed_squash c b s : wf_bytes (b_data b) -> real_text c b = Ok s -> squash s = s.
Proof.
  intros W H. apply squash_id. apply Forall_forall. intros x I. apply (text_chars c b s W H) in I. unfold is_space. unfold may_show in I.
  assert (x = ROOT \/ x = 960 \/ 40 <= x <= 57) by (destruct c; lia). clear - H0. unfold ROOT in H0. lia.
Qed.

(** ** Radicals *)
Definition spelled (c : Z) : str := if c =? ROOT then s2l "sqrt" else [tilde c].
Lemma without_app a s t : without a (s ++ t) = without a s ++ without a t.
Proof. apply filter_app. Qed.
Lemma calls_spelled s : ~ In 47 s -> forall o, without (s2l "()*") (sqrt_calls o (map tilde s)) = flat_map spelled (without (s2l "()*") s).
Proof.
  induction s as [|c s IH]; intros N o; [destruct o; reflexivity|].
  assert (N' : ~ In 47 s) by (intros I; apply N; now right). cbn [map sqrt_calls].
  destruct (o && (48 <=? tilde c) && (tilde c <=? 57)) eqn:D.
  - assert (T : tilde c = c /\ 48 <= c <= 57) by (unfold tilde in *; destruct (c =? 45) eqn:E; lia). destruct T as (T & R). rewrite T.
    assert (K : forall t, without (s2l "()*") (c :: t) = c :: without (s2l "()*") t).
    { intros t. unfold without. cbn [filter]. replace (existsb (Z.eqb c) (s2l "()*")) with false; [reflexivity|]. symmetry. cbn. lia. }
    rewrite !K. cbn [flat_map]. rewrite IH by exact N'. unfold spelled. replace (c =? ROOT) with false by (unfold ROOT; lia). rewrite T. reflexivity.
  - assert (G : forall t : str, without (s2l "()*") ((if o then s2l ")" else []) ++ t) = without (s2l "()*") t) by (intros t; destruct o; reflexivity).
    etransitivity; [apply G|]. clear G. destruct (Z.eqb_spec (tilde c) ROOT) as [T|T].
    + assert (C : c = ROOT) by (unfold tilde in T; destruct (c =? 45) eqn:E; [discriminate T|exact T]). subst c.
      rewrite without_app. change (without (s2l "()*") (s2l "sqrt(")) with (s2l "sqrt"). change (without (s2l "()*") (ROOT :: s)) with (ROOT :: without (s2l "()*") s).
      cbn [flat_map]. rewrite IH by exact N'. reflexivity.
    + assert (R : c <> ROOT) by (intros ->; apply T; reflexivity). unfold without in *. cbn [filter].
      assert (E : existsb (Z.eqb (tilde c)) (s2l "()*") = existsb (Z.eqb c) (s2l "()*")) by (unfold tilde; destruct (Z.eqb_spec c 45) as [->|]; reflexivity).
      rewrite E. destruct (existsb (Z.eqb c) (s2l "()*")); cbn [negb]; [apply IH; exact N'|]. cbn [flat_map]. rewrite IH by exact N'. unfold spelled.
      replace (c =? ROOT) with false by lia. reflexivity.
Qed.
Lemma swap_spelled s : ~ In 115 s -> swap (flat_map spelled s) = swap s.
Proof.
  induction s as [|c s IH]; intros N; [reflexivity|]. cbn [flat_map]. assert (N' : ~ In 115 s) by (intros I; apply N; now right).
  change (c :: s) with ([c] ++ s). unfold spelled at 1. destruct (Z.eqb_spec c ROOT) as [->|R].
  - rewrite swap_root by (now right). rewrite swap_root by (now left). now rewrite IH.
  - rewrite swap_app.
    + rewrite (swap_app [c]) by (intros [I|[]]; apply N; now left). rewrite IH by exact N'. f_equal. unfold tilde.
      destruct (Z.eqb_spec c 45) as [->|]; reflexivity.
    + intros [I|[]]. unfold tilde in I. destruct (c =? 45); [discriminate I|]. apply N. now left.
Qed.
Lemma radical_norm s : replacer (squash s) [(s2l "(", []); (s2l ")", []); (s2l "*", []); (s2l "~", s2l "-"); (s2l "sqrt", [ROOT]); (s2l "-", s2l "+-")]
  = swap (without (s2l "()*") (squash s)).
Proof.
  unfold replacer. cbn [fold_left fst snd]. change (s2l "(") with [40]. change (s2l ")") with [41]. change (s2l "*") with [42]. rewrite !replace_del, !without_without. reflexivity.
Qed.
Lemma radical_same s : squash s = s -> ~ In 47 s -> ~ In 115 s -> radical_parse (accessible s) = radical_parse s.
Proof.
  intros Q B N. unfold radical_parse. rewrite !radical_norm.
  assert (E : swap (without (s2l "()*") (squash (accessible s))) = swap (without (s2l "()*") (squash s))); [|now rewrite E].
  unfold accessible. rewrite squash_squash. unfold replacer. cbn [fold_left fst snd]. change (s2l "-") with [45]. change (s2l "~") with [126]. change (s2l "/") with [47].
  rewrite replace_map. fold tilde. rewrite (str_replace_none 47).
  - assert (S : forall t, squash (without (s2l "()*") t) = without (s2l "()*") (squash t)).
    { intros t. unfold squash, without. induction t as [|c t IH]; [reflexivity|]. cbn [filter]. destruct (negb (is_space c)) eqn:X, (negb (existsb (Z.eqb c) (s2l "()*"))) eqn:Y; cbn [filter]; rewrite ?X, ?Y, IH; reflexivity. }
    rewrite <- S, calls_spelled by exact B. rewrite Q.
    assert (Z1 : squash (flat_map spelled (without (s2l "()*") s)) = flat_map spelled (without (s2l "()*") s)).
    { assert (Z0 : Forall (fun c => is_space c = false) (without (s2l "()*") s)).
      { apply Forall_forall. intros x I. unfold without in I. apply filter_In in I as (I & _). rewrite <- Q in I. unfold squash in I. apply filter_In in I as (_ & I). now apply negb_true_iff. }
      revert Z0. generalize (without (s2l "()*") s) as t. induction t as [|c t IH]; intros F; [reflexivity|]. apply Forall_cons_iff in F as (F0 & F). cbn [flat_map].
      unfold squash in *. rewrite filter_app, (IH F). f_equal. unfold spelled. destruct (c =? ROOT); [reflexivity|]. unfold tilde. cbn [filter]. destruct (Z.eqb_spec c 45) as [->|]; [reflexivity|]. now rewrite F0. }
    rewrite Z1. apply swap_spelled. intros I. apply N. unfold without in I. now apply filter_In in I.
  - intros I. apply in_map_iff in I as (y & E & I). unfold tilde in E. destruct (y =? 45); [discriminate E|subst y; contradiction].
Qed.


(** ** C119: the format "t" of one number *)
Lemma in_calls c s : c <> ROOT -> forall o, In c s -> In c (sqrt_calls o s).
Proof.
  intros R. induction s as [|y s IH]; intros o I; [destruct I|]. cbn [sqrt_calls]. destruct (_ && _).
  - destruct I as [->|I]; [now left|right; now apply IH].
  - apply in_or_app. right. destruct (Z.eqb_spec y ROOT) as [->|]; [|destruct I as [->|I]; [now left|right; now apply IH]].
    destruct I as [I|I]; [congruence|]. apply in_or_app. right. now apply IH.
Qed.
Lemma barred_letter s : In 47 s -> In 110 (accessible s).
Proof.
  intros I. unfold accessible, replacer. cbn [fold_left fst snd]. apply in_squash; [reflexivity|]. apply in_calls; [discriminate|].
  change (s2l "-") with [45]. change (s2l "~") with [126]. change (s2l "/") with [47]. rewrite replace_map, replace_flat. apply in_flat_map. exists 47. split; [|now left].
  apply in_map_iff. exists 47. now split.
Qed.
Lemma in_accessible x s : is_space x = false -> x <> ROOT -> x <> 45 -> x <> 47 -> In x s -> In x (accessible s).
Proof.
  intros S R M B I. unfold accessible, replacer. cbn [fold_left fst snd]. apply in_squash; [exact S|]. apply in_calls; [exact R|].
  change (s2l "-") with [45]. change (s2l "~") with [126]. change (s2l "/") with [47]. rewrite replace_map, replace_flat. apply in_flat_map. exists x.
  split; [|replace (x =? 47) with false by lia; now left]. apply in_map_iff. exists x. split; [|exact I]. now replace (x =? 45) with false by lia.
Qed.
Lemma minus_tilde s : In 45 s -> In 126 (accessible s).
Proof.
  intros I. unfold accessible, replacer. cbn [fold_left fst snd]. apply in_squash; [reflexivity|]. apply in_calls; [discriminate|].
  change (s2l "-") with [45]. change (s2l "~") with [126]. change (s2l "/") with [47]. rewrite replace_map, replace_flat. apply in_flat_map. exists 126. split; [|now left].
  apply in_map_iff. exists 45. now split.
Qed.
Lemma lstrip_map f cs s : (forall c, memb (f c) cs = memb c cs) -> lstrip cs (map f s) = map f (lstrip cs s).
Proof. intros H. induction s as [|c s IH]; [reflexivity|]. cbn [map lstrip]. rewrite H. destruct (memb c cs); [exact IH|reflexivity]. Qed.
Lemma strip_map f cs s : (forall c, memb (f c) cs = memb c cs) -> strip cs (map f s) = map f (strip cs s).
Proof. intros H. unfold strip, rstrip. rewrite lstrip_map by exact H. rewrite <- map_rev, lstrip_map by exact H. now rewrite map_rev. Qed.
Lemma load_tilde s b : squash s = s -> real_load (map tilde s) b = real_load s b.
Proof.
  intros Q. unfold real_load. assert (E : real_parse (map tilde s) = real_parse s); [|now rewrite E].
  rewrite <- Q at 1. rewrite <- squash_tilde. apply parse_tilde. intros X. congruence.
Qed.
Lemma strip_squash cs s : squash s = s -> squash (strip cs s) = strip cs s.
Proof.
  intros Q. apply squash_id. apply Forall_forall. intros x I.
  assert (J : In x s). { unfold strip in I. apply rstrip_chars in I. revert I. generalize s. induction s0 as [|y t IH]; [intros []|]. cbn [lstrip]. destruct (memb y cs); [intros I; right; now apply IH|auto]. }
  rewrite <- Q in J. unfold squash in J. apply filter_In in J as (_ & J). now apply negb_true_iff.
Qed.
(** What is assumed of Python's [Fraction(text)]: it refuses texts with an n or "~". *)
Definition refuses_typed (fp : str -> result (Z * Z)) : Prop := forall s, In 126 s \/ In 110 s -> exists x, fp s = Err x /\ (x = TypeError \/ x = ValueError).
Definition refused (slot : buffer) (r : buffer * out unit) : Prop := exists x, r = (slot, oerr x) /\ (x = TypeError \/ x = ValueError).
Theorem C119_number : forall fp c b s slot, wf_bytes (b_data b) -> refuses_typed fp -> real_text c b = Ok s ->
  real_t c b = Ok (accessible s) /\
  (In 47 s -> refused slot (part_load fp c (accessible s) slot)) /\
  (~ In 47 s -> c = KRealFraction -> In 45 s -> refused slot (part_load fp c (accessible s) slot)) /\
  (~ In 47 s -> (c = KRealFraction -> ~ In 45 s) -> part_load fp c (accessible s) slot = part_load fp c s slot).
Proof.
  intros fp c b s slot W RF H. pose proof (text_chars c b s W H) as TC. pose proof (printed_squash c b s W H) as Q.
  split; [unfold real_t; now rewrite H|]. split; [|split].
  - intros I. pose proof (barred_letter s I) as J. assert (NE : accessible s <> []) by (intros X; rewrite X in J; destruct J).
    assert (FR : forall t, In 110 t -> refused slot (fraction_load fp t slot)).
    { intros t T. unfold fraction_load. destruct (RF (squash t)) as (x & E & X); [right; now apply in_squash|]. rewrite E. exists x. auto. }
    destruct c; try discriminate H; try (apply TC in I; unfold may_show in I; exfalso; lia); cbn [part_load].
    + now apply FR.
    + rewrite radical_load_refused; [exists ValueError; auto|exact NE|]. now apply radical_parse_letter.
    + unfold pi_fraction_load. destruct (_ || _); [|exists ValueError; auto]. apply FR. apply in_replace; [vm_compute; intuition discriminate|exact J].
  - intros _ -> I. cbn [part_load]. unfold fraction_load. destruct (RF (squash (accessible s))) as (x & E & X); [left; apply in_squash; [reflexivity|now apply minus_tilde]|].
    rewrite E. exists x. auto.
  - intros B M.
    assert (NR : c <> KRealRadical -> ~ In ROOT s) by (intros K I; apply TC in I; unfold may_show, ROOT in I; destruct c; try contradiction K; auto; lia).
    assert (AP : c <> KRealRadical -> accessible s = map tilde s) by (intros K; rewrite accessible_plain by auto; now rewrite squash_tilde, Q).
    destruct c; try discriminate H; cbn [part_load].
    + rewrite AP by discriminate. now apply load_tilde.
    + rewrite AP by discriminate. now apply load_tilde.
    + rewrite AP by discriminate. specialize (M eq_refl). assert (E : map tilde s = s); [|now rewrite E].
      clear - M. induction s as [|x s IH]; [reflexivity|]. cbn [map]. rewrite IH by (intros I; apply M; now right). unfold tilde.
      destruct (Z.eqb_spec x 45) as [->|]; [exfalso; apply M; now left|reflexivity].
    + unfold radical_load. rewrite radical_same; [|exact Q|exact B|intros I; apply TC in I; unfold may_show, ROOT in I; lia].
      destruct s as [|x s]; [reflexivity|]. destruct (accessible (x :: s)) as [|y t] eqn:A; [|reflexivity]. exfalso.
      assert (I0 : In x (x :: s)) by now left. destruct (Z.eq_dec x 45) as [->|N45]; [apply minus_tilde in I0; rewrite A in I0; destruct I0|].
      destruct (Z.eq_dec x ROOT) as [->|NRT]; [vm_compute in A|].
      { unfold accessible in A. discriminate A. }
      apply in_accessible in I0; [rewrite A in I0; destruct I0| |exact NRT|exact N45|intros ->; apply B; now left].
      assert (I1 : In x (x :: s)) by now left. rewrite <- Q in I1. unfold squash in I1. apply filter_In in I1 as (_ & I1). now apply negb_true_iff.
    + rewrite AP by discriminate. unfold real_pi_load, replacer. cbn [fold_left fst snd].
      assert (P1 : forall x, x <> 126 -> ~ In x s -> ~ In x (map tilde s)).
      { intros x X N I. apply in_map_iff in I as (y & E & I). unfold tilde in E. destruct (y =? 45); [congruence|subst y; contradiction]. }
      assert (N112 : ~ In 112 s) by (intros I; apply TC in I; unfold may_show in I; lia). assert (N42 : ~ In 42 s) by (intros I; apply TC in I; unfold may_show in I; lia).
      change (s2l "pi") with [112; 105]. change (s2l "*") with [42].
      rewrite (str_replace_none 112 _ _ (map tilde s)) by (apply P1; [lia|exact N112]). rewrite (str_replace_none 112 _ _ s) by exact N112.
      rewrite (str_replace_none 42 _ _ (map tilde s)) by (apply P1; [lia|exact N42]). rewrite (str_replace_none 42 _ _ s) by exact N42.
      assert (MB : memb 960 (map tilde s) = memb 960 s).
      { clear. induction s as [|x s IH]; [reflexivity|]. unfold memb in *. cbn [map existsb]. rewrite IH. f_equal. unfold tilde. destruct (Z.eqb_spec x 45) as [->|]; reflexivity. }
      rewrite MB. destruct (memb 960 s); [|reflexivity]. rewrite strip_map; [apply load_tilde; now apply strip_squash|].
      intros x. unfold tilde. destruct (Z.eqb_spec x 45) as [->|]; reflexivity.
    + rewrite AP by discriminate. unfold pi_fraction_load.
      cbn [real_text] in H. unfold pi_fraction_string in H. destruct (pi_fraction b) as [[n k]|]; [|discriminate H]. cbn [rbind] in H. injection H as H. rewrite pi_text in H.
      destruct (k =? 1) eqn:K; [|exfalso; apply B; rewrite <- H; apply in_or_app; right; right; now left].
      assert (NP : ~ In 960 s) by (rewrite <- H; apply no_pi).
      assert (NP' : ~ In 960 (map tilde s)) by (intros I; apply in_map_iff in I as (y & E & I); unfold tilde in E; destruct (y =? 45); [discriminate E|subst y; contradiction]).
      apply memb_false in NP. apply memb_false in NP'. rewrite NP, NP', !orb_false_r.
      destruct (leqb s (s2l "0")) eqn:Z0; [apply leqb_spec in Z0; now rewrite Z0|]. destruct (leqb (map tilde s) (s2l "0")) eqn:Z1; [|reflexivity].
      apply leqb_spec in Z1. exfalso. destruct s as [|x [|? ?]]; try discriminate Z1. cbn in Z1. injection Z1 as Z1. unfold tilde in Z1.
      destruct (x =? 45); [discriminate Z1|]. subst x. discriminate Z0.
Qed.

(** ** C120, C121: lists and matrices *)
Lemma rstrip_keep cs a x b : memb x cs = false -> exists b', rstrip cs (a ++ x :: b) = a ++ x :: b'.
Proof.
  intros M. induction b as [|y b (b' & IH)] using rev_ind.
  - exists []. unfold rstrip. rewrite rev_app_distr. cbn [rev app lstrip]. rewrite M. cbn [rev]. now rewrite rev_involutive.
  - unfold rstrip in *. replace (a ++ x :: b ++ [y]) with ((a ++ x :: b) ++ [y]) by now rewrite <- app_assoc. remember (a ++ x :: b) as q eqn:EQ. rewrite rev_app_distr. cbn [rev app lstrip].
    destruct (memb y cs); [exists b'; exact IH|]. exists (b ++ [y]). cbn [rev]. rewrite rev_involutive, EQ, <- app_assoc. reflexivity.
Qed.
Lemma decimal_nonempty d : 0 <= d_coef d -> rstrip (s2l ".") (rstrip (s2l "0") (dec_fixed14 d)) <> [].
Proof.
  intros N. unfold dec_fixed14. cbv zeta. set (n := if -14 <=? d_exp d then _ else _).
  assert (NN : 0 <= n / 10 ^ 14).
  { apply Z.div_pos; [|reflexivity]. unfold n. destruct (-14 <=? d_exp d) eqn:E; [pose proof (pow10_pos (d_exp d + 14) ltac:(lia)); nia|]. apply half_even_nonneg; auto. apply pow10_pos. lia. }
  clearbody n. set (tl := repeat _ _ ++ _). rewrite text_digits. pose proof (digits_nonempty _ NN) as NE. pose proof (number_chars (n / 10 ^ 14)) as NC.
  set (D := text_of (digits (n / 10 ^ 14))) in *. assert (ND : D <> []) by (unfold D; intros X; apply map_eq_nil in X; contradiction).
  destruct (exists_last ND) as (D' & l & ED). rewrite ED. set (sg := if d_neg d then _ else _). change (s2l "." ++ tl) with (46 :: tl). rewrite !app_assoc.
  destruct (rstrip_keep (s2l "0") ((sg ++ D') ++ [l]) 46 tl eq_refl) as (b' & ->). rewrite <- app_assoc. cbn [app].
  assert (ML : memb l (s2l ".") = false). { apply memb_false. intros [X|[]]. assert (48 <= l <= 57) by (apply NC; [exact NN|rewrite ED; apply in_or_app; right; now left]). cbn in X. lia. }
  destruct (rstrip_keep (s2l ".") (sg ++ D') l (46 :: b') ML) as (b2 & ->). intros X. apply app_eq_nil in X as (_ & X). discriminate X.
Qed.
Lemma int_nonempty n : str_of_int n <> [].
Proof. rewrite str_of_int_text. intros X. apply app_eq_nil in X as (_ & X). apply map_eq_nil in X. now apply digits_nonempty in X; [|lia]. Qed.
Lemma replace_nonempty c sub x rep s : s <> [] -> str_replace (c :: sub) (x :: rep) s <> [].
Proof. destruct s as [|y s]; [congruence|]. intros _. unfold str_replace. cbn [str_replace_aux]. destruct (starts_with _ _); discriminate. Qed.
Lemma text_nonempty c b s : wf_bytes (b_data b) -> real_text c b = Ok s -> s <> [].
Proof.
  intros W H.
  assert (R : forall d, real_decimal b = Ok d -> rstrip (s2l ".") (rstrip (s2l "0") (dec_fixed14 d)) <> []) by (intros d E; apply decimal_nonempty; now apply (decimal_nonneg b)).
  assert (RS : real_string b = Ok s -> s <> []).
  { unfold real_string. destruct (real_decimal b) as [d|] eqn:E; [|discriminate]. cbn [rbind]. destruct (_ =? 0); intros G; injection G as <-; [discriminate|]. now apply R. }
  destruct c; try discriminate H; cbn [real_text] in H; auto.
  - unfold fraction_string in H. destruct (real_fraction b) as [[n k]|]; [|discriminate H]. cbn [rbind] in H. injection H as <-. unfold fraction_show. cbn [fst snd].
    intros X. apply app_eq_nil in X as (X & _). now apply int_nonempty in X.
  - unfold radical_string in H. destruct (radical_comps b) as [[[[[ls lr] rs] rr] e]|]; [|discriminate H]. cbn [rbind] in H. injection H as <-. unfold radical_show. apply replace_nonempty.
    destruct (radical_reduce (radical_term ls lr)), (radical_reduce (radical_term rs rr)); try discriminate; destruct (e =? 1); discriminate.
  - unfold real_pi_string in H. destruct (real_decimal b) as [d|] eqn:E; [|discriminate H]. cbn [rbind] in H. destruct (_ =? 0); injection H as <-; [discriminate|].
    intros X. apply app_eq_nil in X as (_ & X). discriminate X.
  - unfold pi_fraction_string in H. destruct (pi_fraction b) as [[n k]|]; [|discriminate H]. cbn [rbind] in H. injection H as <-. apply replace_nonempty. unfold fraction_show. cbn [fst snd].
    intros X. apply app_eq_nil in X as (X & _). now apply int_nonempty in X.
Qed.
Lemma calls_back x s : forall o, In x (sqrt_calls o s) -> In x s \/ In x (s2l "sqrt()").
Proof.
  induction s as [|y s IH]; intros o I; [destruct o; [right; cbn in *; tauto|destruct I]|]. cbn [sqrt_calls] in I. destruct (_ && _).
  - destruct I as [->|I]; [left; now left|]. destruct (IH _ I); [left; now right|now right].
  - apply in_app_or in I as [I|I]; [destruct o; [right; cbn in *; tauto|destruct I]|]. destruct (y =? ROOT).
    + apply in_app_or in I as [I|I]; [right; cbn in *; tauto|]. destruct (IH _ I); [left; now right|now right].
    + destruct I as [->|I]; [left; now left|]. destruct (IH _ I); [left; now right|now right].
Qed.
Lemma accessible_back x s : In x (accessible s) -> In x s \/ In x (s2l "sqrt()~n/d").
Proof.
  unfold accessible, squash. intros I. apply filter_In in I as (I & _). apply calls_back in I as [I|I]; [|right; cbn in *; tauto].
  unfold replacer in I. cbn [fold_left fst snd] in I. apply replace_back in I as [I|I]; [|right; cbn in *; tauto]. apply replace_back in I as [I|I]; [auto|right; cbn in *; tauto].
Qed.
Lemma accessible_safe c b s : wf_bytes (b_data b) -> real_text c b = Ok s -> safe s /\ safe (accessible s).
Proof.
  intros W H. pose proof (text_chars c b s W H) as TC. pose proof (text_nonempty c b s W H) as NE. pose proof (printed_squash c b s W H) as Q.
  assert (TS : forall x, In x s -> is_space x = false /\ ~ In x (s2l ",[]{}")).
  { intros x I. split; [rewrite <- Q in I; unfold squash in I; apply filter_In in I as (_ & I); now apply negb_true_iff|].
    apply TC in I. unfold may_show in I. assert (x = ROOT \/ x = 960 \/ 45 <= x <= 57 \/ 40 <= x <= 43) by (destruct c; lia). unfold ROOT in *. intros J. cbn in J. lia. }
  split; [split; assumption|]. split.
  - destruct s as [|x s]; [congruence|]. assert (I0 : In x (x :: s)) by now left. intros A.
    destruct (Z.eq_dec x 45) as [->|N45]; [apply minus_tilde in I0; rewrite A in I0; destruct I0|].
    destruct (Z.eq_dec x 47) as [->|N47]; [apply barred_letter in I0; rewrite A in I0; destruct I0|].
    destruct (Z.eq_dec x ROOT) as [->|NRT]; [unfold accessible in A; cbn in A; discriminate A|].
    pose proof (proj1 (TS x I0)). apply in_accessible in I0; auto. rewrite A in I0. destruct I0.
  - intros x I. split; [unfold accessible, squash in I; apply filter_In in I as (_ & I); now apply negb_true_iff|].
    apply accessible_back in I as [I|I]; [now apply TS|]. intros J. cbn in I, J. lia.
Qed.
Lemma tilde_in x s : x <> 126 -> In x (map tilde s) -> In x s.
Proof. intros X I. apply in_map_iff in I as (y & E & I). unfold tilde in E. destruct (y =? 45); [congruence|now subst y]. Qed.
Lemma in_tilde x s : x <> 45 -> In x s -> In x (map tilde s).
Proof. intros X I. apply in_map_iff. exists x. split; [|exact I]. unfold tilde. destruct (Z.eqb_spec x 45); [contradiction|reflexivity]. Qed.
Lemma tilde_id s : ~ In 45 s -> map tilde s = s.
Proof.
  intros M. induction s as [|x s IH]; [reflexivity|]. cbn [map]. rewrite IH by (intros I; apply M; now right). unfold tilde.
  destruct (Z.eqb_spec x 45) as [->|]; [exfalso; apply M; now left|reflexivity].
Qed.
Lemma root_call s : In ROOT s -> In 40 (accessible s).
Proof.
  intros I. unfold accessible, replacer. cbn [fold_left fst snd]. apply in_squash; [reflexivity|]. set (t := str_replace _ _ _).
  assert (J : In ROOT t) by (apply in_replace; [vm_compute; intuition discriminate|]; apply in_replace; [vm_compute; intuition discriminate|exact I]).
  clearbody t. clear I. cut (forall o, In 40 (sqrt_calls o t)); [auto|]. induction t as [|y t IH]; intros o; [destruct J|]. cbn [sqrt_calls]. destruct J as [->|J].
  - change (o && (48 <=? ROOT) && (ROOT <=? 57)) with (o && true && false). rewrite andb_false_r, Z.eqb_refl. apply in_or_app. right. apply in_or_app. left. cbn. tauto.
  - destruct (_ && _); [right; now apply IH|]. apply in_or_app. right. destruct (y =? ROOT); [apply in_or_app; right; now apply IH|right; now apply IH].
Qed.
Definition both_refuse fp (c : cls) (s t : str) : Prop := (exists x, snd (real_new fp c s) = Err x) /\ (exists x, snd (real_new fp c t) = Err x).
Lemma new_refusal fp c s : In c real_order -> (forall b, exists x, part_load fp c s b = (b, oerr x)) -> exists x, snd (real_new fp c s) = Err x.
Proof. intros _ H. unfold real_new. destruct (real_fresh c) as [w [b|x]]; cbn [obind]; [|exists x; reflexivity]. destruct (H b) as (x & ->). exists x. reflexivity. Qed.
Lemma new_same fp c s t : (forall b, part_load fp c s b = part_load fp c t b) -> real_new fp c s = real_new fp c t.
Proof. intros H. unfold real_new. destruct (real_fresh c) as [w [b|x]]; cbn [obind]; [|reflexivity]. now rewrite H. Qed.
Lemma new_class fp c s x : snd (real_new fp c s) = Ok x -> exists b, x = Real c b.
Proof.
  unfold real_new. destruct (real_fresh c) as [w [b|e]]; cbn [obind]; [|discriminate]. destruct (part_load fp c s b) as [b' [w' [u|e]]]; cbn; [|discriminate]. intros H. injection H as <-. eauto.
Qed.
Definition whole_fraction fp (s : str) : Prop := exists k b, (k = KRealFraction \/ k = KRealPiFraction) /\ real_of_text fp s = Ok (Real k b).
Lemma reals_alike fp s t l : (forall i c, In (i, c) l -> issubclass c KRealEntry = true ->
    real_new fp c t = real_new fp c s \/ both_refuse fp c t s \/ (c = KRealFraction \/ c = KRealPiFraction) /\ exists x, snd (real_new fp c s) = Ok x) ->
  (exists k b, (k = KRealFraction \/ k = KRealPiFraction) /\ try_reals fp l s = Ok (Real k b)) \/ try_reals fp l t = try_reals fp l s.
Proof.
  induction l as [|[i c] l IH]; intros H; [now right|]. cbn [try_reals]. destruct (issubclass c KRealEntry) eqn:C; [|apply IH; intros j k J; apply (H j k); now right].
  assert (IH' := IH (fun j k J => H j k (or_intror J))). destruct (H i c (or_introl eq_refl) C) as [E|[((x & X) & (y & Y))|(K & x & X)]].
  - rewrite E. destruct (snd (real_new fp c s)); [now right|exact IH'].
  - rewrite X, Y. exact IH'.
  - left. rewrite X. destruct (new_class fp c s x X) as (b & ->). eauto.
Qed.
(** What is assumed of Python's [Fraction(text)] besides: an open parenthesis is an error. *)
Definition refuses_calls (fp : str -> result (Z * Z)) : Prop := forall s, In 40 s -> exists x, fp s = Err x /\ (x = TypeError \/ x = ValueError).
Lemma alike_texts fp c b s : wf_bytes (b_data b) -> refuses_typed fp -> refuses_signs fp -> refuses_calls fp -> real_text c b = Ok s -> ~ In 47 s ->
  whole_fraction fp s \/ real_of_text fp (accessible s) = real_of_text fp s.
Proof.
  intros W RT RS RC H B. pose proof (text_chars c b s W H) as TC. pose proof (printed_squash c b s W H) as Q. pose proof (accessible_safe c b s W H) as (SS & SA).
  assert (CH : forall x, In x s -> x = 45 \/ 48 <= x <= 57 \/ x = 46 \/ x = 960 \/ 40 <= x <= 41 \/ x = 43 \/ x = ROOT).
  { intros x I. assert (x <> 47) by (intros ->; contradiction). apply TC in I. unfold may_show in I. destruct c; lia. }
  assert (CA : forall x, In x (accessible s) -> In x s \/ In x (s2l "sqrt()~n/d")) by (intros x; apply accessible_back).
  assert (RP : In ROOT s -> ~ In 960 s). { intros I J. apply TC in I, J. unfold may_show, ROOT in I, J. destruct c; lia. }
  assert (AP : ~ In ROOT s -> accessible s = map tilde s) by (intros K; rewrite accessible_plain by auto; now rewrite squash_tilde, Q).
  assert (FS : forall x b', In x s -> x = 960 \/ x = 8730 -> exists y, fraction_load fp s b' = (b', oerr y)).
  { intros x b' I X. unfold fraction_load. rewrite Q. destruct (RS s) as (y & E & _); [destruct X; subst x; auto|]. rewrite E. eauto. }
  assert (FA : forall t b', squash t = t -> In 960 t \/ In 40 t \/ In 126 t -> exists y, fraction_load fp t b' = (b', oerr y)).
  { intros t b' E [I|[I|I]]; unfold fraction_load; rewrite E; [destruct (RS t) as (y & Y & _)|destruct (RC t I) as (y & Y & _)|destruct (RT t) as (y & Y & _)]; auto; rewrite Y; eauto. }
  assert (QA : squash (accessible s) = accessible s) by (unfold accessible; apply squash_squash).
  assert (RD : forall t b', In 960 t \/ In 40 t \/ In 8730 t -> ~ In 101 t -> ~ In 69 t -> exists y, real_load t b' = (b', oerr y)).
  { intros t b' I N1 N2. unfold real_load. assert (A : exists a, alien a /\ In a t) by (unfold alien, foreign; destruct I as [I|[I|I]]; eexists; (split; [|exact I]); tauto).
    destruct A as (a & A & Ia). rewrite (real_parse_alien a) by auto. eauto. }
  assert (NE : forall t, (t = s \/ t = accessible s) -> ~ In 101 t /\ ~ In 69 t /\ ~ In 112 t /\ ~ In 42 t).
  { intros t [-> | ->]; repeat split; intros I; try (apply CA in I as [I|I]; [|vm_compute in I; intuition discriminate]); apply CH in I; unfold ROOT in I; lia. }
  assert (PL : forall t b', (t = s \/ t = accessible s) -> real_pi_load t b' = if memb 960 t then real_load (strip [960] t) b' else (b', oerr ValueError)).
  { intros t b' T. destruct (NE t T) as (_ & _ & N1 & N2). unfold real_pi_load, replacer. cbn [fold_left fst snd]. change (s2l "pi") with [112; 105]. change (s2l "*") with [42].
    rewrite (str_replace_none 112 _ _ t N1), (str_replace_none 42 _ _ t N2). reflexivity. }
  apply reals_alike. intros i k I K. apply registry_in in I; [|exact K]. clear i K.
  assert (IK := I). cbn in I.
  assert (ACC : In ROOT s -> ~ In 960 (accessible s)) by (intros R J; apply CA in J as [J|J]; [now apply (RP R)|vm_compute in J; intuition discriminate]).
  destruct (in_dec Z.eq_dec ROOT s) as [R|NR].
  - (* a root *)
    pose proof (root_call s R) as A40. assert (M0 : memb 960 s = false) by (apply memb_false; auto). assert (M1 : memb 960 (accessible s) = false) by (apply memb_false; auto).
    destruct (NE s (or_introl eq_refl)) as (n1 & n2 & _). destruct (NE (accessible s) (or_intror eq_refl)) as (n3 & n4 & _).
    assert (Z0 : leqb s (s2l "0") = false) by (destruct (leqb s (s2l "0")) eqn:Z; [apply leqb_spec in Z; rewrite Z in R; vm_compute in R; intuition discriminate|reflexivity]).
    assert (Z1 : leqb (accessible s) (s2l "0") = false) by (destruct (leqb (accessible s) (s2l "0")) eqn:Z; [apply leqb_spec in Z; rewrite Z in A40; vm_compute in A40; intuition discriminate|reflexivity]).
    destruct I as [<-|[<-|[<-|[<-|[<-|[<-|[]]]]]]].
    1,2: right; left; split; apply new_refusal; auto; intros b'; cbn [part_load]; apply RD; auto.
    + right; left; split; apply new_refusal; auto; intros b'; cbn [part_load]; [apply FA; auto|apply (FS ROOT); auto].
    + left. apply new_same. intros b'. cbn [part_load]. unfold radical_load. rewrite radical_same; [|exact Q|exact B|intros I; apply CH in I; unfold ROOT in I; lia].
      destruct SS as (SN & _), SA as (AN & _). destruct s; [congruence|]. destruct (accessible (z :: s)); [congruence|reflexivity].
    + right; left; split; apply new_refusal; auto; intros b'; cbn [part_load]; rewrite PL by auto; [rewrite M1|rewrite M0]; eauto.
    + right; left; split; apply new_refusal; auto; intros b'; cbn [part_load]; unfold pi_fraction_load; [rewrite M1, Z1|rewrite M0, Z0]; cbn [orb]; eauto.
  - specialize (AP NR). destruct (in_dec Z.eq_dec 45 s) as [M|NM]; [|rewrite AP, (tilde_id s NM); now left].
    assert (I126 : In 126 (accessible s)) by now apply minus_tilde.
    assert (MB : memb 960 (map tilde s) = memb 960 s).
    { clear. induction s as [|x s IH]; [reflexivity|]. unfold memb in *. cbn [map existsb]. rewrite IH. f_equal. unfold tilde. destruct (Z.eqb_spec x 45) as [->|]; reflexivity. }
    destruct I as [<-|[<-|[<-|[<-|[<-|[<-|[]]]]]]].
    1,2: left; apply new_same; intros b'; cbn [part_load]; rewrite AP; now apply load_tilde.
    + right. assert (E : exists x, snd (real_new fp KRealFraction (accessible s)) = Err x) by (apply new_refusal; auto; intros b'; cbn [part_load]; apply FA; auto).
      destruct (snd (real_new fp KRealFraction s)) as [x|x] eqn:S; [right; split; [now left|]; eauto|left; split; [exact E|eauto]].
    + left. apply new_same. intros b'. cbn [part_load]. unfold radical_load. rewrite radical_same; [|exact Q|exact B|intros I; apply CH in I; unfold ROOT in I; lia].
      destruct SS as (SN & _), SA as (AN & _). destruct s; [congruence|]. destruct (accessible (z :: s)); [congruence|reflexivity].
    + left. apply new_same. intros b'. cbn [part_load]. rewrite !PL by auto. rewrite AP, MB. destruct (memb 960 s); [|reflexivity].
      rewrite strip_map; [apply load_tilde; now apply strip_squash|]. intros x. unfold tilde. destruct (Z.eqb_spec x 45) as [->|]; reflexivity.
    + right. assert (E : exists x, snd (real_new fp KRealPiFraction (accessible s)) = Err x).
      { apply new_refusal; auto. intros b'. cbn [part_load]. unfold pi_fraction_load. destruct (leqb (accessible s) (s2l "0")) eqn:Z; [apply leqb_spec in Z; rewrite Z in I126; vm_compute in I126; intuition discriminate|].
        cbn [orb]. destruct (memb 960 (accessible s)); [|eauto]. apply FA; [|right; right; apply in_replace; [vm_compute; intuition discriminate|exact I126]].
        apply squash_id. apply Forall_forall. intros x X. apply replace_back in X as [X|[]]. rewrite <- QA in X. unfold squash in X. apply filter_In in X as (_ & X). now apply negb_true_iff. }
      destruct (snd (real_new fp KRealPiFraction s)) as [x|x] eqn:S; [right; split; [now right|]; eauto|left; split; [exact E|eauto]].
Qed.
(** The texts of the elements in lists and matrices. *)
Lemma t_pieces r : r <> [] -> Forall safe r -> list_pieces (list_t_show r) = r.
Proof.
  destruct r as [|t r]; [congruence|]. intros _ F. unfold list_pieces, list_t_show.
  assert (E : strip (s2l "[]{}") (s2l "{" ++ joined (s2l ",") (t :: r) ++ s2l "}") = joined (s2l ",") (t :: r)).
  { set (s := joined _ _). assert (NS : forall c, In c s -> ~ In c (s2l "[]{}")).
    { intros c I. apply in_joined in I as [I|(u & J & K)]; [intros J; cbn in I, J; lia|]. rewrite Forall_forall in F. destruct (F u J) as [_ X]. destruct (X c K) as [_ N]. intros Y. apply N. now right. }
    rewrite <- (strip_brackets s NS) at 2. unfold strip, rstrip. rewrite !app_assoc. change (s2l "{" ++ s) with (123 :: s). change (s2l "[" ++ s) with (91 :: s). cbn [app lstrip].
    change (memb 123 (s2l "[]{}")) with true. change (memb 91 (s2l "[]{}")) with true. cbv iota.
    assert (L : forall x, memb x (s2l "[]{}") = true -> rev (lstrip (s2l "[]{}") (rev (lstrip (s2l "[]{}") (s ++ [x])))) = s).
    { intros x X. destruct s as [|c s']; [cbn [app lstrip]; rewrite X; reflexivity|]. assert (M : memb c (s2l "[]{}") = false) by (apply memb_false; apply NS; now left).
      cbn [app lstrip]. rewrite M. change (c :: s' ++ [x]) with ((c :: s') ++ [x]). rewrite rev_app_distr. cbn [rev app lstrip]. rewrite X.
      change (rev s' ++ [c]) with (rev (c :: s')). rewrite lstrip_safe; [apply rev_involutive|]. intros y I. apply NS. now apply in_rev. }
    change (s2l "}") with [125]. change (s2l "]") with [93]. rewrite (L 125 eq_refl), (L 93 eq_refl). reflexivity. }
  rewrite E. change (s2l ",") with [44]. rewrite (split_joined []) by (auto; intros c []). f_equal. apply map_id.
Qed.
Lemma ts_accessible zs ts : texts_of zs = Ok ts -> ts_of zs = Ok (map accessible ts).
Proof.
  revert ts. induction zs as [|z zs IH]; intros ts H; cbn [texts_of ts_of] in *; [injection H as <-; reflexivity|].
  unfold real_t. destruct (real_text (e_cls z) (e_data z)) as [t|]; [|discriminate H]. cbn [rbind] in *. destruct (texts_of zs) as [u|]; [|discriminate H]. cbn [rbind] in H. injection H as <-.
  rewrite (IH u eq_refl). reflexivity.
Qed.
Lemma texts_printed zs ts : texts_of zs = Ok ts -> Forall2 (fun z t => real_text (e_cls z) (e_data z) = Ok t) zs ts.
Proof.
  revert ts. induction zs as [|z zs IH]; intros ts H; cbn [texts_of] in H; [injection H as <-; constructor|].
  destruct (real_text (e_cls z) (e_data z)) as [t|] eqn:E; [|discriminate H]. cbn [rbind] in *. destruct (texts_of zs) as [u|]; [|discriminate H]. cbn [rbind] in H. injection H as <-.
  constructor; [exact E|now apply IH].
Qed.
Definition wf_element (e : entry) : Prop := wf_bytes (b_data (e_data e)).
Lemma texts_safe zs ts : Forall wf_element zs -> texts_of zs = Ok ts -> Forall safe ts /\ Forall safe (map accessible ts).
Proof.
  intros W H. apply texts_printed in H. induction H as [|z t zs ts P H IH]; [split; constructor|]. apply Forall_cons_iff in W as (W0 & W). destruct (IH W) as (A & B).
  destruct (accessible_safe _ _ _ W0 P) as (S & S'). split; [now constructor|cbn [map]; now constructor].
Qed.
(** What the plain text reads as does not depend on a space before it, is a number and
    is no fraction. *)
Definition rereadable fp (t : str) : Prop := exists k d, k <> KRealFraction /\ k <> KRealPiFraction /\
  forall sp, sp = [] \/ sp = [32] -> exists b, real_of_text fp (sp ++ t) = Ok (Real k b) /\ b_data b = d.
Lemma elem_data ns ps fp s t k b b' : real_of_text fp s = Ok (Real k b) -> real_of_text fp t = Ok (Real k b') -> b_data b = b_data b' -> text_elem ns ps fp s = text_elem ns ps fp t.
Proof. intros E E' D. unfold text_elem. rewrite E, E', !olift_ok, !obind_oret. cbn [r_buf]. now rewrite D. Qed.
Lemma elem_alike ns ps fp c b t sp : wf_bytes (b_data b) -> refuses_typed fp -> refuses_signs fp -> refuses_calls fp -> real_text c b = Ok t -> ~ In 47 t -> rereadable fp t ->
  sp = [] \/ sp = [32] -> text_elem ns ps fp (accessible t) = text_elem ns ps fp (sp ++ t).
Proof.
  intros W R1 R2 R3 T B (k & d & K1 & K2 & H) S. destruct (H [] (or_introl eq_refl)) as (b0 & E0 & D0). destruct (H sp S) as (b1 & E1 & D1). cbn [app] in E0.
  destruct (alike_texts fp c b t W R1 R2 R3 T B) as [(k' & b' & K & E)|E].
  - rewrite E in E0. injection E0 as -> ->. destruct K; contradiction.
  - rewrite E0 in E. apply (elem_data ns ps fp _ _ k b0 b1); congruence.
Qed.
(** A list whose numbers are shown without a slash: both texts load alike. *)
Theorem C120_list : forall ns ps fp e zs ts, refuses_typed fp -> refuses_signs fp -> refuses_calls fp ->
  list_elems ns ps e = oret zs -> zs <> [] -> Forall wf_element zs -> texts_of zs = Ok ts -> Forall (fun t => ~ In 47 t /\ rereadable fp t) ts ->
  exists s st, list_text ns ps e = oret s /\ list_t ns ps e = oret st /\ st = list_t_show (map accessible ts) /\
    forall e0, list_load_string ns ps fp st e0 = list_load_string ns ps fp s e0.
Proof.
  intros ns ps fp e zs ts R1 R2 R3 E NE W T F. exists (list_show ts), (list_t_show (map accessible ts)).
  split; [unfold list_text; rewrite E, obind_oret, T, olift_ok, obind_oret; reflexivity|].
  split; [unfold list_t; rewrite E, obind_oret, (ts_accessible zs ts T), olift_ok, obind_oret; reflexivity|]. split; [reflexivity|]. intros e0.
  destruct (texts_safe zs ts W T) as (S & S'). pose proof (texts_printed zs ts T) as P.
  assert (NT : ts <> []) by (intros ->; inversion P; subst; congruence).
  unfold list_load_string. rewrite t_pieces; [|destruct ts; [congruence|discriminate]|exact S'].
  destruct ts as [|t ts]; [congruence|]. rewrite (C105_pieces t ts S).
  assert (X : omapM (text_elem ns ps fp) (map accessible (t :: ts)) = omapM (text_elem ns ps fp) (t :: map (cons 32) ts)); [|now rewrite X].
  inversion P as [|z ? zs' ? P0 P1]; subst. apply Forall_cons_iff in W as (W0 & W). apply Forall_cons_iff in F as ((B & RR) & F). cbn [map omapM].
  rewrite (elem_alike ns ps fp _ _ t [] W0 R1 R2 R3 P0 B RR (or_introl eq_refl)). cbn [app].
  assert (X : omapM (text_elem ns ps fp) (map accessible ts) = omapM (text_elem ns ps fp) (map (cons 32) ts)); [|now rewrite X].
  clear - P1 W F R1 R2 R3. induction P1 as [|z t zs ts P0 P1 IH]; [reflexivity|]. apply Forall_cons_iff in W as (W0 & W). apply Forall_cons_iff in F as ((B & RR) & F). cbn [map omapM].
  rewrite (elem_alike ns ps fp _ _ t [32] W0 R1 R2 R3 P0 B RR (or_intror eq_refl)). cbn [app]. now rewrite (IH W F).
Qed.
Print Assumptions C120_list.
(** A list one of whose numbers is shown with a slash: the text does not load. *)
Lemma reals_none fp s l : (forall i c, In (i, c) l -> issubclass c KRealEntry = true -> exists x, snd (real_new fp c s) = Err x) -> try_reals fp l s = Err ValueError.
Proof.
  induction l as [|[i c] l IH]; intros H; [reflexivity|]. cbn [try_reals]. destruct (issubclass c KRealEntry) eqn:C; [|apply IH; intros j k J; apply (H j k); now right].
  destruct (H i c (or_introl eq_refl) C) as (x & ->). apply IH. intros j k J. apply (H j k). now right.
Qed.
Lemma barred_slash s : In 47 s -> In 47 (accessible s).
Proof.
  intros I. unfold accessible, replacer. cbn [fold_left fst snd]. apply in_squash; [reflexivity|]. apply in_calls; [discriminate|].
  change (s2l "/") with [47]. rewrite (replace_flat 47). apply in_flat_map. exists 47. split; [|cbn; tauto]. apply in_replace; [vm_compute; intuition discriminate|exact I].
Qed.
Lemma barred_refused fp c b s : wf_bytes (b_data b) -> refuses_typed fp -> real_text c b = Ok s -> In 47 s -> real_of_text fp (accessible s) = Err ValueError.
Proof.
  intros W RT H B. pose proof (text_chars c b s W H) as TC. apply reals_none. intros i k I K. apply registry_in in I; [|exact K]. assert (IK := I). cbn in I.
  pose proof (barred_letter s B) as N. pose proof (barred_slash s B) as SL. assert (QA : squash (accessible s) = accessible s) by (unfold accessible; apply squash_squash).
  assert (CH : forall x, In x (accessible s) -> x <> 101 /\ x <> 69 /\ x <> 112 /\ x <> 42).
  { intros x J. apply accessible_back in J as [J|J]; [apply TC in J; unfold may_show, ROOT in J; destruct c; lia|]. repeat split; intros ->; vm_compute in J; intuition discriminate. }
  assert (RR : forall t b', In 47 t -> (forall x, In x t -> In x (accessible s)) -> exists x, real_load t b' = (b', oerr x)).
  { intros t b' J T. unfold real_load. rewrite (real_parse_foreign 47); [eauto|now left|exact J| |]; intros X; apply T, CH in X; lia. }
  assert (FR : forall t b', In 110 t -> exists x, fraction_load fp t b' = (b', oerr x)).
  { intros t b' J. unfold fraction_load. destruct (RT (squash t)) as (x & E & _); [right; apply in_squash; [reflexivity|exact J]|]. rewrite E. eauto. }
  destruct I as [<-|[<-|[<-|[<-|[<-|[<-|[]]]]]]]; (apply new_refusal; [exact IK|]); intros b'; cbn [part_load].
  1,2: apply RR; auto.
  - now apply FR.
  - rewrite radical_load_refused; [eauto|intros X; rewrite X in N; destruct N|now apply radical_parse_letter].
  - unfold real_pi_load, replacer. cbn [fold_left fst snd]. change (s2l "pi") with [112; 105]. change (s2l "*") with [42].
    rewrite (str_replace_none 112) by (intros X; apply CH in X; lia). rewrite (str_replace_none 42) by (intros X; apply CH in X; lia). destruct (memb 960 _); [|eauto]. apply RR.
    + unfold strip. unfold rstrip. apply in_rev. rewrite rev_involutive. apply in_lstrip; [cbn; lia|]. apply -> in_rev. apply in_lstrip; [cbn; lia|exact SL].
    + intros x X. unfold strip in X. apply rstrip_chars in X. revert X. clear. generalize (accessible s) as t. induction t as [|y t IH]; [auto|]. cbn [lstrip]. destruct (memb y [960]); [right; auto|auto].
  - unfold pi_fraction_load. destruct (_ || _); [|eauto]. apply FR. apply in_replace; [vm_compute; intuition discriminate|exact N].
Qed.
Lemma omapM_fails {A B} (f : A -> out B) l x : In x l -> (exists w e, f x = (w, Err e)) -> exists w e, omapM f l = (w, Err e).
Proof.
  intros I (w & e & F). induction l as [|y l IH]; [destruct I|]. cbn [omapM]. destruct I as [->|I]; [rewrite F; cbn [obind]; eauto|].
  destruct (f y) as [w1 [v|e1]]; cbn [obind]; [|eauto]. destruct (IH I) as (w2 & e2 & ->). cbn [obind]. eauto.
Qed.
Theorem C120_barred : forall ns ps fp e zs ts t, refuses_typed fp ->
  list_elems ns ps e = oret zs -> Forall wf_element zs -> texts_of zs = Ok ts -> In t ts -> In 47 t ->
  exists st, list_t ns ps e = oret st /\ forall e0, exists w x, list_load_string ns ps fp st e0 = (w, Err x).
Proof.
  intros ns ps fp e zs ts t RT E W T I B. exists (list_t_show (map accessible ts)).
  split; [unfold list_t; rewrite E, obind_oret, (ts_accessible zs ts T), olift_ok, obind_oret; reflexivity|]. intros e0.
  destruct (texts_safe zs ts W T) as (_ & S'). unfold list_load_string. rewrite t_pieces; [|destruct ts; [destruct I|discriminate]|exact S'].
  destruct (omapM_fails (text_elem ns ps fp) (map accessible ts) (accessible t)) as (w & x & X); [now apply in_map| |rewrite X; cbn [obind]; eauto].
  pose proof (texts_printed zs ts T) as P. assert (Q : exists z, wf_element z /\ real_text (e_cls z) (e_data z) = Ok t).
  { clear - P W I. induction P as [|z u zs ts P0 P1 IH]; [destruct I|]. apply Forall_cons_iff in W as (W0 & W). destruct I as [->|I]; [eauto|auto]. }
  destruct Q as (z & Wz & Pz). unfold text_elem. rewrite (barred_refused fp _ _ t Wz RT Pz B). cbn. eauto.
Qed.
Print Assumptions C120_barred.
(** Matrices: the rows stand side by side, without commas between them. *)
Lemma squash_t_row r : Forall safe r -> squash (row_t_show r) = 91 :: row_text r ++ [93].
Proof.
  intros F. unfold row_t_show. rewrite !squash_app. change (squash (s2l "[")) with [91]. change (squash (s2l "]")) with [93]. cbn [app]. do 2 f_equal.
  unfold row_text. change (s2l ",") with [44]. induction r as [|t [|u q] IH]; [reflexivity| |].
  - apply Forall_inv in F. now apply safe_squash.
  - apply Forall_cons_iff in F as [S F]. rewrite !joined_cons, !squash_app, (safe_squash t S), (IH F). reflexivity.
Qed.
Lemma squash_t_rows r rs : Forall (Forall safe) (r :: rs) -> squash (matrix_t_show (r :: rs)) = 91 :: 91 :: rows_body [93; 91] r rs ++ [93].
Proof.
  intros F. unfold matrix_t_show. rewrite !squash_app. change (squash (s2l "[")) with [91]. change (squash (s2l "]")) with [93]. cbn [app]. f_equal.
  change (91 :: rows_body [93; 91] r rs ++ [93]) with ((91 :: rows_body [93; 91] r rs) ++ [93]). f_equal.
  revert r F. induction rs as [|q rs IH]; intros r F; apply Forall_cons_iff in F as [S F]; cbn [map rows_body].
  - cbn [joined]. now apply squash_t_row.
  - rewrite joined_cons, !squash_app, (squash_t_row r S). cbn [map] in IH. rewrite (IH q F). cbn [app squash filter]. f_equal. rewrite <- app_assoc. reflexivity.
Qed.
Lemma keep_body r rs : Forall (Forall safe) (r :: rs) -> str_replace [93; 44; 91] [93; 91] (rows_body [93; 91] r rs) = rows_body [93; 91] r rs.
Proof.
  revert r. induction rs as [|q rs IH]; intros r F; apply Forall_cons_iff in F as [S F]; cbn [rows_body].
  - rewrite str_replace_app by (apply row_no; [exact S|cbn; lia]). reflexivity.
  - rewrite str_replace_app by (apply row_no; [exact S|cbn; lia]). f_equal. unfold str_replace in *. cbn [app]. cbn [str_replace_aux]. cbn [starts_with Z.eqb Pos.eqb andb]. now rewrite (IH q F).
Qed.
Lemma t_matrix_pieces rows : rows <> [] -> Forall (fun r => r <> []) rows -> Forall (Forall safe) rows -> matrix_pieces (matrix_t_show rows) = rows.
Proof.
  intros NE E F. rewrite <- (C106_pieces rows NE E F) at 2. destruct rows as [|r rs]; [congruence|]. unfold matrix_pieces. rewrite (squash_t_rows r rs F), (squash_rows r rs F).
  assert (I : forall s, inner (91 :: 91 :: s ++ [93]) = [91] ++ s).
  { intros s. unfold inner. cbn [skipn]. change (91 :: s ++ [93]) with ((91 :: s) ++ [93]). now rewrite removelast_last. }
  rewrite !I. change (s2l "],[") with [93; 44; 91]. change (s2l "][") with [93; 91].
  rewrite !str_replace_app by (cbn; lia). now rewrite (replace_body r rs F), (keep_body r rs F).
Qed.
Lemma rows_accessible m ts : rows_of m = Ok ts -> t_rows_of m = Ok (map (map accessible) ts).
Proof.
  revert ts. induction m as [|z m IH]; intros ts H; cbn [rows_of t_rows_of] in *; [injection H as <-; reflexivity|].
  destruct (texts_of z) as [t|] eqn:E; [|discriminate H]. cbn [rbind] in *. destruct (rows_of m) as [u|]; [|discriminate H]. cbn [rbind] in H. injection H as <-.
  rewrite (ts_accessible z t E), (IH u eq_refl). reflexivity.
Qed.
Lemma rows_printed m ts : rows_of m = Ok ts -> Forall2 (fun z t => texts_of z = Ok t) m ts.
Proof.
  revert ts. induction m as [|z m IH]; intros ts H; cbn [rows_of] in H; [injection H as <-; constructor|].
  destruct (texts_of z) as [t|] eqn:E; [|discriminate H]. cbn [rbind] in *. destruct (rows_of m) as [u|]; [|discriminate H]. cbn [rbind] in H. injection H as <-.
  constructor; [exact E|now apply IH].
Qed.
Lemma rows_safe m ts : Forall (Forall wf_element) m -> rows_of m = Ok ts -> Forall (Forall safe) ts /\ Forall (Forall safe) (map (map accessible) ts).
Proof.
  intros W H. apply rows_printed in H. induction H as [|z t zs ts P H IH]; [split; constructor|]. apply Forall_cons_iff in W as (W0 & W). destruct (IH W) as (A & B).
  destruct (texts_safe z t W0 P) as (S & S'). split; [now constructor|cbn [map]; now constructor].
Qed.
Lemma rows_full m ts : Forall (fun r => r <> []) m -> rows_of m = Ok ts -> Forall (fun r => r <> []) ts /\ Forall (fun r => r <> []) (map (map accessible) ts).
Proof.
  intros W H. apply rows_printed in H. induction H as [|z t zs ts P H IH]; [split; constructor|]. apply Forall_cons_iff in W as (W0 & W). destruct (IH W) as (A & B).
  apply texts_printed in P. assert (t <> []) by (intros ->; inversion P; subst; congruence). split; [now constructor|]. cbn [map]. constructor; [destruct t; [congruence|discriminate]|exact B].
Qed.
Lemma map_pieces (ts : list (list str)) : ts <> [] -> map (map accessible) ts <> []. Proof. destruct ts; [congruence|discriminate]. Qed.
Lemma row_elems ns ps fp z t : refuses_typed fp -> refuses_signs fp -> refuses_calls fp -> Forall wf_element z -> texts_of z = Ok t -> Forall (fun t => ~ In 47 t /\ rereadable fp t) t ->
  omapM (text_elem ns ps fp) (map accessible t) = omapM (text_elem ns ps fp) t.
Proof.
  intros R1 R2 R3 W T F. apply texts_printed in T. induction T as [|y u z t P0 P1 IH]; [reflexivity|]. apply Forall_cons_iff in W as (W0 & W). apply Forall_cons_iff in F as ((B & RR) & F). cbn [map omapM].
  rewrite (elem_alike ns ps fp _ _ u [] W0 R1 R2 R3 P0 B RR (or_introl eq_refl)). cbn [app]. now rewrite (IH W F).
Qed.
Theorem C121_matrix : forall ns ps fp e m ts, refuses_typed fp -> refuses_signs fp -> refuses_calls fp ->
  matrix_rows ns ps e = oret m -> m <> [] -> Forall (fun r => r <> []) m -> Forall (Forall wf_element) m -> rows_of m = Ok ts -> Forall (Forall (fun t => ~ In 47 t /\ rereadable fp t)) ts ->
  exists s st, matrix_text ns ps e = oret s /\ matrix_t ns ps e = oret st /\ st = matrix_t_show (map (map accessible) ts) /\
    forall e0, matrix_load_string ns ps fp st e0 = matrix_load_string ns ps fp s e0.
Proof.
  intros ns ps fp e m ts R1 R2 R3 E NE FR W T F. exists (matrix_show ts), (matrix_t_show (map (map accessible) ts)).
  split; [unfold matrix_text; rewrite E, obind_oret, T, olift_ok, obind_oret; reflexivity|].
  split; [unfold matrix_t; rewrite E, obind_oret, (rows_accessible m ts T), olift_ok, obind_oret; reflexivity|]. split; [reflexivity|]. intros e0.
  destruct (rows_safe m ts W T) as (S & S'). destruct (rows_full m ts FR T) as (N1 & N2). pose proof (rows_printed m ts T) as P.
  assert (NT : ts <> []) by (intros ->; inversion P; subst; congruence).
  unfold matrix_load_string. rewrite (C106_pieces ts NT N1 S), t_matrix_pieces; auto; [|now apply map_pieces].
  assert (X : omapM (omapM (text_elem ns ps fp)) (map (map accessible) ts) = omapM (omapM (text_elem ns ps fp)) ts); [|now rewrite X].
  clear - P W F R1 R2 R3. induction P as [|z t zs ts P0 P1 IH]; [reflexivity|]. apply Forall_cons_iff in W as (W0 & W). apply Forall_cons_iff in F as (F0 & F). cbn [map omapM].
  rewrite (row_elems ns ps fp z t R1 R2 R3 W0 P0 F0). now rewrite (IH W F).
Qed.
Print Assumptions C121_matrix.
Theorem C121_barred : forall ns ps fp e m ts r t, refuses_typed fp ->
  matrix_rows ns ps e = oret m -> Forall (fun r => r <> []) m -> Forall (Forall wf_element) m -> rows_of m = Ok ts -> In r ts -> In t r -> In 47 t ->
  exists st, matrix_t ns ps e = oret st /\ forall e0, exists w x, matrix_load_string ns ps fp st e0 = (w, Err x).
Proof.
  intros ns ps fp e m ts r t RT E FR W T Ir It B. exists (matrix_t_show (map (map accessible) ts)).
  split; [unfold matrix_t; rewrite E, obind_oret, (rows_accessible m ts T), olift_ok, obind_oret; reflexivity|]. intros e0.
  destruct (rows_safe m ts W T) as (S & S'). destruct (rows_full m ts FR T) as (N1 & N2). pose proof (rows_printed m ts T) as P.
  unfold matrix_load_string. rewrite t_matrix_pieces; auto; [|destruct ts; [destruct Ir|discriminate]].
  destruct (omapM_fails (omapM (text_elem ns ps fp)) (map (map accessible) ts) (map accessible r)) as (w & x & X); [now apply in_map| |rewrite X; cbn [obind]; eauto].
  apply (omapM_fails _ _ (accessible t)); [now apply in_map|].
  assert (Q : exists z, wf_element z /\ real_text (e_cls z) (e_data z) = Ok t).
  { clear - P W Ir It. induction P as [|z u zs ts P0 P1 IH]; [destruct Ir|]. apply Forall_cons_iff in W as (W0 & W). destruct Ir as [->|Ir]; [|auto].
    apply texts_printed in P0. clear - P0 W0 It. induction P0 as [|y v z r P0 P1 IH]; [destruct It|]. apply Forall_cons_iff in W0 as (W1 & W). destruct It as [->|It]; [eauto|auto]. }
  destruct Q as (z & Wz & Pz). unfold text_elem. rewrite (barred_refused fp _ _ t Wz RT Pz B). cbn. eauto.
Qed.
Print Assumptions C121_barred.
(** ** C119: which texts have a slash *)
Lemma minus_shown n : In 45 (str_of_int n) <-> n < 0.
Proof.
  rewrite str_of_int_text. unfold minus_of. split.
  - intros I. apply in_app_or in I as [I|I]; [destruct (n <? 0) eqn:E; [lia|destruct I]|]. pose proof (number_chars (Z.abs n) 45 ltac:(lia) I). lia.
  - intros N. replace (n <? 0) with true by lia. now left.
Qed.
Theorem C119_bars : forall c b s, wf_bytes (b_data b) -> real_text c b = Ok s ->
  (c = KReal \/ c = KUndefReal \/ c = KRealPi -> ~ In 47 s) /\
  (forall n k, c = KRealFraction -> real_fraction b = Ok (n, k) -> (In 47 s <-> k <> 1) /\ (k = 1 -> (In 45 s <-> n < 0))) /\
  (forall n k, c = KRealPiFraction -> pi_fraction b = Ok (n, k) -> (In 47 s <-> k <> 1)) /\
  (forall ls lr rs rr e, c = KRealRadical -> radical_comps b = Ok (ls, lr, rs, rr, e) -> 0 <= lr -> 0 <= rr ->
    (In 47 s <-> (vanishes ls lr = false /\ vanishes rs rr = false) \/ ((vanishes ls lr = false \/ vanishes rs rr = false) /\ e <> 1))).
Proof.
  intros c b s W H. pose proof (text_chars c b s W H) as TC. assert (NI : forall k, ~ In 47 (str_of_int k)) by (intros k I; apply int_chars in I; lia).
  split; [intros C I; apply TC in I; unfold may_show in I; destruct C as [-> |[-> | ->]]; lia|]. split; [|split].
  - intros n k -> F. cbn [real_text] in H. unfold fraction_string in H. rewrite F in H. cbn [rbind] in H. injection H as <-. unfold fraction_show. cbn [fst snd].
    destruct (k =? 1) eqn:K; rewrite ?app_nil_r.
    + split; [split; [intros I; now apply NI in I|lia]|]. intros _. apply minus_shown.
    + split; [|lia]. split; [lia|]. intros _. apply in_or_app. right. now left.
  - intros n k -> F. cbn [real_text] in H. unfold pi_fraction_string in H. rewrite F in H. cbn [rbind] in H. injection H as <-. rewrite pi_text.
    destruct (k =? 1) eqn:K; [split; [intros I; now apply NI in I|lia]|]. split; [lia|]. intros _. apply in_or_app. right. right. now left.
  - intros ls lr rs rr e -> F HL HR. cbn [real_text] in H. unfold radical_string in H. rewrite F in H. cbn [rbind] in H. injection H as <-. unfold radical_show.
    assert (V : forall x y, 0 <= y -> (radical_reduce (radical_term x y) = [] <-> vanishes x y = true) /\ ~ In 47 (radical_reduce (radical_term x y))).
    { intros x y Y. split; [|intros I; apply reduce_chars in I; unfold radical_term in I; apply in_app_or in I as [I|[I|I]]; [now apply NI in I|discriminate I|now apply NI in I]].
      rewrite reduce_term by exact Y. destruct (vanishes x y) eqn:E; [tauto|]. split; [|discriminate]. intros Z. exfalso. revert Z. unfold term_text, written. cbn [t_sign t_scal t_rad].
      destruct (y =? 1); intros Z; apply app_eq_nil in Z as (_ & Z); apply app_eq_nil in Z as (Z & Z').
      - rewrite andb_false_r in Z. apply map_eq_nil in Z. now apply digits_nonempty in Z; [|lia].
      - discriminate Z'. }
    destruct (V ls lr HL) as (V1 & N1). destruct (V rs rr HR) as (V2 & N2). set (l := radical_reduce (radical_term ls lr)) in *. set (r := radical_reduce (radical_term rs rr)) in *.
    assert (B : forall t, In 47 (str_replace (s2l "+-") (s2l "-") t) <-> In 47 t).
    { intros t. split; [intros I; apply replace_back in I as [I|I]; [exact I|cbn in I; lia]|]. apply in_replace. vm_compute. intuition discriminate. }
    rewrite B. clearbody l r. clear B TC. destruct l as [|l0 l], r as [|r0 r].
    + rewrite (proj1 V1), (proj1 V2) by reflexivity. split; [intros I; cbn in I; lia|intuition discriminate].
    + assert (E2 : vanishes rs rr = false) by (destruct (vanishes rs rr); [destruct V2 as (_ & V2); discriminate (V2 eq_refl)|reflexivity]). rewrite (proj1 V1) by reflexivity. rewrite E2.
      destruct (e =? 1) eqn:K; [split; [intros I; contradiction|intuition (discriminate || lia)]|]. split; [intros _; right; split; [now right|lia]|]. intros _. apply in_or_app. right. now left.
    + assert (E1 : vanishes ls lr = false) by (destruct (vanishes ls lr); [destruct V1 as (_ & V1); discriminate (V1 eq_refl)|reflexivity]). rewrite (proj1 V2) by reflexivity. rewrite E1.
      destruct (e =? 1) eqn:K; [split; [intros I; contradiction|intuition (discriminate || lia)]|]. split; [intros _; right; split; [now left|lia]|]. intros _. apply in_or_app. right. now left.
    + assert (E1 : vanishes ls lr = false) by (destruct (vanishes ls lr); [destruct V1 as (_ & V1); discriminate (V1 eq_refl)|reflexivity]).
      assert (E2 : vanishes rs rr = false) by (destruct (vanishes rs rr); [destruct V2 as (_ & V2); discriminate (V2 eq_refl)|reflexivity]). rewrite E1, E2.
      split; [intros _; now left|]. intros _. apply in_or_app. right. apply in_or_app. right. apply in_or_app. right. apply in_or_app. right. apply in_or_app. right. now left.
Qed.
Print Assumptions C119_bars.

(** ** C122: complex numbers *)
Lemma inner_minus y r : In 45 r -> parse_int 10 (y :: r) = Err ValueError.
Proof.
  intros I. assert (G : forall s a p, In 45 s -> parse_digits 10 s a p = None).
  { induction s as [|x s IH]; intros a p J; [destruct J|]. cbn [parse_digits]. destruct J as [->|J]; [reflexivity|].
    destruct (x =? 95); [destruct p; auto|]. destruct (digit_val x); [|reflexivity]. destruct (_ <? _); auto. }
  unfold parse_int. destruct (y =? 45); [now rewrite G|]. destruct (y =? 43); [now rewrite G|]. rewrite G; [reflexivity|now right].
Qed.
Lemma lstrip_upto cs u d w : memb d cs = false -> exists u', lstrip cs (u ++ d :: w) = u' ++ d :: w.
Proof.
  intros M. induction u as [|x u IH]; [exists []; cbn [app lstrip]; now rewrite M|]. cbn [app lstrip]. destruct (memb x cs); [exact IH|]. now exists (x :: u).
Qed.
Lemma split_inner u d w : d <> 46 -> exists p y r, In p (split_on 46 (u ++ d :: 45 :: w)) /\ p = y :: r /\ In 45 r.
Proof.
  intros D. assert (NE : forall s, split_on 46 s <> []) by (intros [|z s]; cbn; [discriminate|]; destruct (z =? 46); [discriminate|]; destruct (split_on 46 s); discriminate).
  induction u as [|x u (p & y & r & I & E & J)].
  - cbn [app split_on]. replace (d =? 46) with false by lia. change (45 =? 46) with false. cbv iota. specialize (NE w). destruct (split_on 46 w) as [|q qs]; [congruence|].
    exists (d :: 45 :: q), d, (45 :: q). split; [now left|]. split; [reflexivity|now left].
  - cbn [app split_on]. specialize (NE (u ++ d :: 45 :: w)). destruct (x =? 46); [exists p, y, r; split; [now right|auto]|].
    destruct (split_on 46 (u ++ d :: 45 :: w)) as [|q qs]; [congruence|]. destruct I as [->|I].
    + exists (x :: p), x, p. split; [now left|]. split; [reflexivity|]. rewrite E. now right.
    + exists p, y, r. split; [now right|auto].
Qed.
Definition decimal_char (c : Z) : Prop := c = 45 \/ c = 46 \/ 48 <= c <= 57.
Lemma inner_sign u d v : 48 <= d <= 57 -> (forall c, In c (u ++ v) -> decimal_char c \/ c = 126) -> real_parse (u ++ d :: 126 :: v) = Err ValueError.
Proof.
  intros D C. rewrite real_parse_steps by (destruct u; discriminate). set (s := u ++ d :: 126 :: v).
  assert (CS : forall c, In c s -> decimal_char c \/ c = 126).
  { intros c I. apply in_app_or in I as [I|[<-|[<-|I]]]; [apply C; apply in_or_app; now left|left; unfold decimal_char; lia|now right|apply C; apply in_or_app; now right]. }
  assert (Q : squash s = s).
  { apply squash_id. apply Forall_forall. intros c I. apply CS in I. unfold is_space, decimal_char in *. destruct I as [[->|[->|I]]| ->]; try reflexivity. lia. }
  assert (LW : lower s = s).
  { unfold lower. rewrite <- (map_id s) at 2. apply map_ext_in. intros c I. apply CS in I. unfold decimal_char in I. replace ((65 <=? c) && (c <=? 90)) with false by lia. reflexivity. }
  rewrite Q, LW. unfold replacer. cbn [fold_left fst snd]. change (s2l "~") with [126]. change (s2l "-") with [45]. rewrite replace_map.
  set (un := fun c => if c =? 126 then 45 else c). assert (ES : map un s = map un u ++ d :: 45 :: map un v).
  { unfold s. rewrite map_app. cbn [map]. unfold un at 2. replace (d =? 126) with false by lia. reflexivity. }
  rewrite ES. set (t0 := map un u ++ d :: 45 :: map un v).
  assert (CT : forall c, In c t0 -> decimal_char c). { intros c I. unfold t0 in I. rewrite <- ES in I. apply in_map_iff in I as (y & E & I). apply CS in I. unfold un, decimal_char in *. destruct (Z.eqb_spec y 126); lia. }
  assert (N101 : ~ In 101 t0) by (intros I; apply CT in I; unfold decimal_char in I; lia).
  rewrite (replace_absent 101) by (auto; right; now left). cbv zeta.
  assert (T : exists w, rp_dot t0 = (map un u ++ d :: 45 :: w) ++ s2l "e0" /\ ~ In 101 (map un u ++ d :: 45 :: w)).
  { unfold rp_dot. destruct (memb 101 t0) eqn:M; [exfalso; apply N101; now apply memb_spec|]. destruct (memb 46 (t0 ++ s2l "e0")); [exists (map un v); split; [reflexivity|exact N101]|].
    exists (map un v ++ [46]). change (s2l "e") with [101]. rewrite replace1_app, (str_replace_none 101) by exact N101. split.
    - unfold t0. change (str_replace [101] (s2l ".e") (s2l "e0")) with (s2l ".e0"). rewrite <- !app_assoc. f_equal. cbn [app]. do 2 f_equal. rewrite <- app_assoc. reflexivity.
    - change (map un u ++ d :: 45 :: map un v ++ [46]) with (map un u ++ (d :: 45 :: map un v) ++ [46]). rewrite app_assoc. intros I. apply in_app_or in I as [I|[I|[]]]; [now apply N101|discriminate I]. }
  destruct T as (w & -> & NW). set (neg := starts_with _ _). clearbody neg.
  assert (MD : memb d (s2l "+-") = false) by (apply memb_false; cbn; lia).
  assert (ST : exists u', strip (s2l "+-") ((map un u ++ d :: 45 :: w) ++ s2l "e0") = (u' ++ d :: 45 :: w) ++ s2l "e0" /\ ~ In 101 (u' ++ d :: 45 :: w)).
  { unfold strip. rewrite (lstrip_keep d) by (try (intros X; cbn in X; lia); apply in_or_app; right; now left).
    destruct (lstrip_upto (s2l "+-") (map un u) d (45 :: w) MD) as (u' & E). rewrite E. exists u'. split.
    - change (s2l "e0") with ([101] ++ [48]). rewrite app_assoc. apply rstrip_snoc_id. vm_compute. intuition discriminate.
    - rewrite <- E. intros I. apply NW. revert I. clear. generalize (map un u ++ d :: 45 :: w) as n. induction n as [|y n IH]; intros J; [exact J|]. cbn [lstrip] in J. destruct (memb y _); [right; auto|exact J]. }
  destruct ST as (u' & -> & NU). unfold rp_end. change ((u' ++ d :: 45 :: w) ++ s2l "e0") with ((u' ++ d :: 45 :: w) ++ 101 :: [48]). rewrite split_on_app by exact NU. change (split_on 101 [48]) with [[48]].
  destruct (split_inner u' d w ltac:(lia)) as (p & y & r & P & E & I).
  destruct (split_on 46 (u' ++ d :: 45 :: w)) as [|a [|b [|? ?]]]; try reflexivity.
  assert (OZ : or_zero p = y :: r) by (rewrite E; reflexivity). pose proof (inner_minus y r I) as IM.
  destruct P as [->|[->|[]]].
  - rewrite OZ, IM. reflexivity.
  - destruct (parse_int 10 (or_zero a)) as [i|x] eqn:F; [|apply parse_int_errs in F; now subst x]. cbn [rbind]. rewrite OZ, IM. reflexivity.
Qed.
(** What is split: the text without spaces and products, with "~" for the minus. *)
Definition marked (c : Z) : str := if c =? 105 then [91; 105; 93] else [c].
Lemma marked_tilde s : map tilde (flat_map marked s) = flat_map marked (map tilde s).
Proof.
  induction s as [|c s IH]; [reflexivity|]. cbn [flat_map map]. rewrite map_app, IH. f_equal. unfold marked, tilde at 2. destruct (Z.eqb_spec c 105) as [->|N]; [reflexivity|].
  cbn [map]. unfold tilde. destruct (Z.eqb_spec c 45) as [->|]; [reflexivity|]. now replace (c =? 105) with false by lia.
Qed.
Lemma marked_filter f s : f 91 = true -> f 105 = true -> f 93 = true -> filter f (flat_map marked s) = flat_map marked (filter f s).
Proof.
  intros F1 F2 F3. induction s as [|c s IH]; [reflexivity|]. cbn [flat_map filter]. rewrite filter_app, IH. unfold marked at 1. destruct (Z.eqb_spec c 105) as [->|N].
  - cbn [filter]. rewrite F1, F2, F3. cbn [flat_map]. reflexivity.
  - cbn [filter]. destruct (f c); [|reflexivity]. cbn [flat_map]. unfold marked at 2. replace (c =? 105) with false by lia. reflexivity.
Qed.
Lemma unmarked s : ~ In 91 s -> str_replace [91; 105; 93] [105] (flat_map marked s) = s.
Proof.
  induction s as [|c s IH]; intros N; [reflexivity|]. cbn [flat_map]. assert (N' : ~ In 91 s) by (intros I; apply N; now right). unfold marked at 1. destruct (Z.eqb_spec c 105) as [->|X].
  - rewrite str_replace_hit, (IH N'). reflexivity.
  - cbn [app]. rewrite str_replace_miss; [now rewrite (IH N')|]. cbn [starts_with]. replace (91 =? c) with false; [reflexivity|]. symmetry. apply Z.eqb_neq. intros <-. apply N. now left.
Qed.
Lemma filter_tilde (f : Z -> bool) s : (forall c, f (tilde c) = f c) -> filter f (map tilde s) = map tilde (filter f s).
Proof. intros H. induction s as [|c s IH]; [reflexivity|]. cbn [map filter]. rewrite H, IH. now destruct (f c). Qed.
Lemma norm_t s : ~ In 91 s -> ~ In 106 s -> complex_norm (complex_accessible s) = map tilde (core s).
Proof.
  intros N1 N2. unfold complex_norm, complex_accessible. rewrite squash_squash. unfold replacer. cbn [fold_left fst snd].
  change (s2l "i") with [105]. change (s2l "[i]") with [91; 105; 93]. change (s2l "-") with [45]. change (s2l "~") with [126]. change (s2l "*") with [42]. change (s2l "j") with [106].
  rewrite (replace_flat 105), (replace_map 45). change (fun c => if c =? 45 then 126 else c) with tilde. change (fun c => if c =? 105 then [91; 105; 93] else [c]) with marked.
  rewrite marked_tilde. rewrite replace_del. unfold squash. rewrite marked_filter by reflexivity.
  unfold without. rewrite marked_filter by reflexivity.
  assert (E : filter (fun c => negb (existsb (Z.eqb c) [42])) (filter (fun c => negb (is_space c)) (map tilde s)) = map tilde (core s)).
  { rewrite !filter_tilde; [|intros c; unfold tilde; destruct (Z.eqb_spec c 45) as [->|]; reflexivity|intros c; unfold tilde; destruct (Z.eqb_spec c 45) as [->|]; reflexivity].
    f_equal. rewrite core_squash, replace_del. reflexivity. }
  rewrite E. assert (SUB : forall x, In x (core s) -> In x s) by (intros x I; unfold core, without in I; apply filter_In in I; tauto).
  set (t := map tilde (core s)). assert (NT : ~ In 91 t /\ ~ In 106 t /\ ~ In 45 t).
  { unfold t. split; [|split]; intros I; apply in_map_iff in I as (y & Y & I); apply SUB in I; unfold tilde in Y; destruct (Z.eqb_spec y 45); try (subst y; contradiction); try discriminate Y. }
  destruct NT as (T1 & T2 & T3). rewrite (str_replace_none 45).
  - rewrite unmarked by exact T1. now apply str_replace_none.
  - intros I. apply in_flat_map in I as (y & Y & I). unfold marked in I. destruct (y =? 105); cbn in I; [lia|]. destruct I as [->|[]]. contradiction.
Qed.
(** The text of given parts, squeezed. *)
Lemma show_core c na A nb B : plain A -> plain B -> let a := sg na ++ A in let b := sg nb ++ B in
  ~ In 91 (complex_show a c b) /\ ~ In 106 (complex_show a c b) /\
  (b = s2l "0" -> core (complex_show a c b) = a) /\
  (b <> s2l "0" -> a = s2l "0" -> exists M, core (complex_show a c b) = sg nb ++ M /\ flat M) /\
  (b <> s2l "0" -> a <> s2l "0" -> exists M, core (complex_show a c b) = sg na ++ A ++ pm nb ++ M /\ flat M /\
     (closing c -> M = (if leqb B (s2l "1") then [] else B) ++ [105])).
Proof.
  intros PA PB a b. unfold complex_show. destruct (imag_shape c B PB) as (M0 & M1 & M2 & M3 & M4 & M5 & M6 & M7 & M8).
  pose proof (imag_drop c B PB) as MD. cbv zeta in MD. unfold b. rewrite imag_sign. set (M := make_imag c B) in *.
  assert (CA : core a = a) by (unfold a; rewrite core_app, (plain_core A PA); now destruct na).
  destruct (leqb (sg nb ++ B) (s2l "0")) eqn:ZB.
  { apply leqb_str in ZB. rewrite ZB. split; [apply sg_plain; [exact PA|inset]|]. split; [apply sg_plain; [exact PA|inset]|]. split; [auto|]. split; congruence. }
  assert (NB : sg nb ++ B <> s2l "0") by (intros E; apply leqb_str in E; congruence).
  destruct (leqb a (s2l "0")) eqn:ZA.
  { apply leqb_str in ZA. split; [apply in_app3; [destruct nb; cbn; lia|exact M3]|]. split; [apply in_app3; [destruct nb; cbn; lia|exact M4]|].
    split; [congruence|]. split; [|congruence]. intros _ _. exists (core M). split; [|exact M6]. rewrite core_app. f_equal. now destruct nb. }
  assert (NA : a <> s2l "0") by (intros E; apply leqb_str in E; congruence).
  unfold a. rewrite replacer_two; auto; try (apply plain_not; [exact PA|inset]). rewrite MD.
  set (M' := if (if is_barred c then starts_with (s2l "1/") B else negb (is_radical c) && leqb B (s2l "1")) then skipn 1 M else M).
  assert (SUB : forall x, ~ In x M -> ~ In x M').
  { intros x N I. apply N. unfold M' in I. match type of I with In _ (if ?t then _ else _) => destruct t end; [|exact I]. destruct M; [destruct I|now right]. }
  assert (HM : flat (core M')).
  { unfold M'. destruct (is_barred c) eqn:BC.
    - destruct (starts_with (s2l "1/") B) eqn:S1; [|exact M6].
      unfold M in *. rewrite imag_kinds, BC in *. change (s2l "1/") with [49; 47] in S1. destruct B as [|x [|y r]]; [discriminate S1|cbn in S1; rewrite andb_false_r in S1; discriminate S1|].
      cbn [starts_with] in S1. apply andb_prop in S1 as [S1 S2]. apply andb_prop in S2 as [S2 _]. assert (x = 49) as -> by lia. assert (y = 47) as -> by lia.
      change (49 :: 47 :: r) with ([49] ++ 47 :: r) in *. rewrite replace1_app in *. change (str_replace [47] [105; 47] [49]) with [49] in *. cbn [app skipn] in *.
      change (core (49 :: ?t)) with (49 :: core t) in M6. destruct M6 as (_ & K1 & K2).
      split; [|split; intros I; [apply K1|apply K2]; now right]. change (47 :: r) with ([47] ++ r). rewrite str_replace_hit. change (core (105 :: ?t)) with (105 :: core t). discriminate.
    - destruct (negb (is_radical c) && leqb B (s2l "1")) eqn:S1; [|exact M6]. apply andb_prop in S1 as [S1 S2]. apply leqb_spec in S2.
      unfold M in *. rewrite imag_kinds, BC in *. destruct (is_radical c); [discriminate S1|]. rewrite S2 in *. change (flat [105]). split; [discriminate|split; intros I; cbn in I; lia]. }
  assert (HC : closing c -> core M' = (if leqb B (s2l "1") then [] else B) ++ [105]).
  { intros K. assert (KB : is_barred c = false /\ is_radical c = false) by (destruct K as [-> | ->]; split; reflexivity). destruct KB as (K1 & K2).
    unfold M', M. rewrite imag_kinds, K1, K2. cbn [negb andb]. destruct (leqb B (s2l "1")) eqn:S1; [apply leqb_spec in S1; rewrite S1; reflexivity|].
    rewrite core_app, (plain_core B PB). reflexivity. }
  clearbody M'.
  split; [repeat apply in_app3; [destruct na; cbn; lia|apply plain_not; [exact PA|inset]|cbn; lia|destruct nb; cbn; lia|cbn; lia|now apply SUB]|].
  split; [repeat apply in_app3; [destruct na; cbn; lia|apply plain_not; [exact PA|inset]|cbn; lia|destruct nb; cbn; lia|cbn; lia|now apply SUB]|].
  split; [congruence|]. split; [intros _ X; exfalso; apply NA; exact X|]. intros _ _. exists (core M'). split; [|split; [exact HM|exact HC]].
  rewrite !core_app, (plain_core A PA), <- app_assoc. destruct na, nb; reflexivity.
Qed.
Lemma flat_tilde s : flat s -> map tilde s = s.
Proof. intros (_ & _ & N). now apply tilde_id. Qed.
Lemma unit_tilde s : unitless (map tilde s) = map tilde (unitless s).
Proof.
  unfold unitless. rewrite !replace_del. unfold without. rewrite filter_tilde by (intros c; unfold tilde; destruct (Z.eqb_spec c 45) as [->|]; reflexivity).
  cbv zeta. destruct (filter _ s); reflexivity.
Qed.
Lemma memb_tilde x s : x <> 45 -> x <> 126 -> memb x (map tilde s) = memb x s.
Proof.
  intros X Y. induction s as [|c s IH]; [reflexivity|]. unfold memb in *. cbn [map existsb]. rewrite IH. f_equal. unfold tilde. destruct (Z.eqb_spec c 45) as [->|]; [|reflexivity].
  replace (x =? 126) with false by lia. now replace (x =? 45) with false by lia.
Qed.
Lemma strip_plus s : ~ In 43 s -> strip (s2l "+") s = s.
Proof.
  intros N. unfold strip, rstrip. assert (L : lstrip (s2l "+") s = s) by (apply lstrip_safe; intros c I [<-|[]]; now apply N). rewrite L, lstrip_safe; [apply rev_involutive|].
  intros c I [<-|[]]. apply N. now apply in_rev.
Qed.
(** One piece. *)
Lemma t_one s x : ~ In 91 s -> ~ In 106 s -> core s = x -> x <> [] -> ~ In 43 x -> complex_parts (complex_accessible s) =
  if memb 105 x then Ok (s2l "0", map tilde (unitless x)) else Ok (map tilde x, s2l "0").
Proof.
  intros N1 N2 E NE N. unfold complex_parts. rewrite (norm_t s N1 N2), E. assert (N' : ~ In 43 (map tilde x)) by (intros I; apply tilde_in in I; [contradiction|lia]).
  rewrite strip_plus, split_on_none by exact N'. rewrite <- unit_tilde. unfold pick_parts, unitless. destruct x as [|c x]; [congruence|]. change (map tilde (c :: x)) with (tilde c :: map tilde x) at 1.
  cbv iota beta zeta. rewrite memb_tilde by lia. destruct (memb 105 (c :: x)); reflexivity.
Qed.
(** The pieces of the text. *)
Theorem C122_pieces : forall c na A nb B, plain A -> plain B -> let a := sg na ++ A in let b := sg nb ++ B in let s := complex_show a c b in
  (a = s2l "0" \/ b = s2l "0" \/ nb = false -> forall p q, complex_parts s = Ok (p, q) -> complex_parts (complex_accessible s) = Ok (map tilde p, map tilde q)) /\
  (a <> s2l "0" -> nb = true -> closing c -> complex_parts (complex_accessible s) = Ok (s2l "0", map tilde a ++ s2l "~" ++ if leqb B (s2l "1") then [] else B)).
Proof.
  intros c na A nb B PA PB a b s. destruct (show_core c na A nb B PA PB) as (N1 & N2 & C0 & C1 & C2). fold a b in N1, N2, C0, C1, C2. fold s in N1, N2, C0, C1, C2.
  assert (NA : ~ In 43 A) by (apply plain_not; [exact PA|inset]). assert (NI : ~ In 105 A) by (apply plain_not; [exact PA|inset]). assert (NB : ~ In 105 B) by (apply plain_not; [exact PB|inset]).
  assert (EA : a <> []) by (unfold a; intros X; apply app_eq_nil in X as (_ & X); now apply (proj1 PA)).
  assert (IA : memb 105 a = false) by (apply memb_false; apply in_app3; [destruct na; cbn; lia|exact NI]).
  split.
  - intros Z p q P. destruct (list_eq_dec Z.eq_dec b (s2l "0")) as [ZB|ZB].
    { assert (E := C0 ZB). rewrite (t_one s a N1 N2 E EA) by (now apply sg_no43). rewrite IA. rewrite (parts_one s na A N1 N2 E) in P by now apply plain_flat.
      replace (memb 105 A) with false in P by (symmetry; now apply memb_false). injection P as <- <-. reflexivity. }
    destruct (list_eq_dec Z.eq_dec a (s2l "0")) as [ZA|ZA].
    { destruct (C1 ZB ZA) as (M & E & FM). rewrite (parts_one s nb M N1 N2 E FM) in P. rewrite (t_one s (sg nb ++ M) N1 N2 E).
      - replace (memb 105 (sg nb ++ M)) with (memb 105 M) by (now destruct nb). destruct (memb 105 M); injection P as <- <-; reflexivity.
      - intros X. apply app_eq_nil in X as (_ & X). now apply (proj1 FM).
      - apply sg_no43. apply FM. }
    destruct Z as [Z|[Z|Z]]; [contradiction|contradiction|]. destruct (C2 ZB ZA) as (M & E & FM & _).
    rewrite (parts_two s na A nb M N1 N2 E (plain_flat A PA) FM) in P. injection P as <- <-. rewrite Z. rewrite Z in E. cbn [sg app].
    unfold complex_parts. rewrite (norm_t s N1 N2), E, app_assoc, map_app. fold a. change (pm false ++ M) with (43 :: M). cbn [map]. change (tilde 43) with 43. rewrite (flat_tilde M FM).
    assert (NT : ~ In 43 (map tilde a)) by (intros I; apply tilde_in in I; [|lia]; revert I; now apply sg_no43).
    assert (ST : strip (s2l "+") (map tilde a ++ 43 :: M) = map tilde a ++ 43 :: M).
    { unfold strip. destruct (map tilde a) as [|x r] eqn:MT; [apply map_eq_nil in MT; contradiction|]. rewrite <- MT in *. rewrite lstrip_id.
      - destruct (flat_last M FM) as (w & l & -> & NL). change (map tilde a ++ 43 :: w ++ [l]) with (map tilde a ++ (43 :: w) ++ [l]). rewrite app_assoc. apply rstrip_snoc_id. intros [X|[]]. cbn in X. lia.
      - intros y q Y [<-|[]]. rewrite MT in Y. cbn [app] in Y. injection Y as -> _. apply NT. rewrite MT. now left. }
    rewrite ST, split_on_app, split_on_none by (exact NT || apply FM). unfold pick_parts. rewrite <- unit_tilde, (flat_tilde M FM).
    destruct (map tilde a) as [|x r] eqn:MT; [apply map_eq_nil in MT; contradiction|]. reflexivity.
  - intros ZA Hn K. destruct (list_eq_dec Z.eq_dec b (s2l "0")) as [ZB|ZB]; [unfold b in ZB; rewrite Hn in ZB; destruct B; discriminate ZB|].
    destruct (C2 ZB ZA) as (M & E & FM & KM). specialize (KM K). rewrite Hn in E. rewrite app_assoc in E. fold a in E.
    rewrite (t_one s (a ++ pm true ++ M) N1 N2 E); [|intros X; apply app_eq_nil in X as (X & _); contradiction|].
    + replace (memb 105 (a ++ pm true ++ M)) with true by (symmetry; apply memb_spec; apply in_or_app; right; apply in_or_app; right; rewrite KM; apply in_or_app; right; now left).
      f_equal. f_equal. rewrite <- unit_tilde, !map_app, (flat_tilde M FM). change (map tilde (pm true)) with [126]. rewrite KM. unfold unitless. rewrite !replace1_app.
      rewrite (str_replace_none 105) by (intros I; apply tilde_in in I; [|lia]; apply memb_false in IA; contradiction). change (str_replace [105] [] [126]) with [126]. change (str_replace [105] [] [105]) with (@nil Z). rewrite app_nil_r.
      rewrite (str_replace_none 105) by (destruct (leqb B (s2l "1")); [intros []|exact NB]). cbv zeta. change (s2l "~") with [126].
      destruct (map tilde a ++ [126] ++ _) eqn:X; [|reflexivity]. apply app_eq_nil in X as (_ & X). discriminate X.
    + apply in_app3; [now apply sg_no43|]. apply in_app3; [cbn; lia|apply FM].
Qed.
Print Assumptions C122_pieces.
Lemma rstrip_last cs s u l : rstrip cs s = u ++ [l] -> memb l cs = false.
Proof.
  unfold rstrip. intros E. apply (f_equal (@rev Z)) in E. rewrite rev_involutive, rev_app_distr in E. cbn [rev app] in E. revert E. generalize (rev s) as t.
  induction t as [|y t IH]; [discriminate|]. cbn [lstrip]. destruct (memb y cs) eqn:M; [exact IH|]. intros E. injection E as -> _. exact M.
Qed.
Lemma tilde_own fp t d : squash t = t -> own fp KReal t d -> own fp KReal (map tilde t) d.
Proof. intros Q (E & L). split; [|exact L]. rewrite <- E. apply new_same. intros b. cbn [part_load]. now apply load_tilde. Qed.
(** The text of a decimal part. *)
Lemma part_shape fp low neg x m d : stored_real low neg x m d -> short x m ->
  exists A d', plain A /\ real_text KReal (Buf true d) = Ok (sg neg ++ A) /\ own fp KReal (sg neg ++ A) d' /\ (sg neg ++ A = s2l "0" <-> m = 0) /\
    (forall c, In c (sg neg ++ A) -> decimal_char c) /\ exists u l, sg neg ++ A = u ++ [l] /\ 48 <= l <= 57.
Proof.
  intros SR Sh. destruct (C108_decimal_part fp low neg x m d SR Sh) as (t & T & (A & PA & ST) & O). destruct (decimal_text low neg x m d SR Sh) as (t' & T' & N & CH & R).
  cbn [real_text] in T. rewrite T in T'. injection T' as <-. clear A PA ST.
  assert (SG : exists A, plain A /\ t = sg neg ++ A).
  { destruct SR as (HL & P & X & M). assert (BL : is_byte low) by (unfold is_byte; lia). destruct M as [M|(-> & -> & ->)].
    - apply payload_stored in P; [|lia|lia]. assert (PB : Buf true d = stored low neg x m) by (rewrite P; reflexivity). rewrite PB in T.
      destruct (real_string_stored low neg x m BL X ltac:(lia)) as (l & W & N' & S & Sq & V & SG & NI & NX). destruct (lit_signed l neg W NX NI SG) as (A & PA & TA). exists A. split; [exact PA|].
      change (lit_text l = sg neg ++ A) in TA. congruence.
    - apply payload_stored in P; [|lia|lia]. assert (PB : Buf true d = stored low false 128 0) by (rewrite P; reflexivity). rewrite PB, real_string_zero in T by auto. injection T as <-.
      exists (s2l "0"). split; [|reflexivity]. split; [discriminate|]. intros c [<-|[]]. split; intros J; vm_compute in J; lia. }
  destruct SG as (A & PA & ->). exists A. eexists. split; [exact PA|]. split; [exact T|]. split; [exact O|]. split; [|split; [intros c I; apply CH in I; exact I|]].
  - split.
    + intros E. rewrite E in R. specialize (R 0 0 (zeros 7) ltac:(unfold is_byte; lia) eq_refl). change (real_load (s2l "0") (Buf true (0 :: 0 :: zeros 7))) with (stored 0 false 128 0, @oret unit tt) in R.
      apply (f_equal fst) in R. cbn [fst] in R. destruct SR as (_ & _ & X & [M|M]); [|tauto]. apply stored_inj in R as (_ & R & _); lia.
    + intros ->. destruct SR as (HL & P & X & [M|(_ & -> & ->)]); [lia|]. assert (BL : is_byte low) by (unfold is_byte; lia). apply payload_stored in P; [|lia|lia].
      assert (PB : Buf true d = stored low false 128 0) by (rewrite P; reflexivity). rewrite PB, real_string_zero in T by auto. now injection T.
  - assert (NE : A <> []) by apply PA. destruct (exists_last NE) as (A' & l & EA). exists (sg neg ++ A'), l. rewrite EA, app_assoc. split; [reflexivity|].
    assert (IL : In l (sg neg ++ A)) by (apply in_or_app; right; rewrite EA; apply in_or_app; right; now left). assert (N45 : l <> 45).
    { intros ->. apply (plain_not 45 _ PA); [inset|]. rewrite EA. apply in_or_app. right. now left. }
    assert (N46 : l <> 46).
    { intros ->. unfold real_string in T. destruct (real_decimal (Buf true d)) as [dd|]; [|discriminate T]. cbn [rbind] in T. destruct (_ =? 0).
      - injection T as T. rewrite EA, app_assoc in T. apply (f_equal (@rev Z)) in T. rewrite rev_app_distr in T. discriminate T.
      - injection T as T. rewrite EA, app_assoc in T. apply rstrip_last in T. discriminate T. }
    apply CH in IL. lia.
Qed.
Lemma decimal_squash s : (forall c, In c s -> decimal_char c) -> squash s = s.
Proof.
  intros H. apply squash_id. apply Forall_forall. intros c I. apply H in I. unfold is_space, decimal_char in *. destruct I as [->|[->|I]]; try reflexivity. lia.
Qed.
(** A decimal complex number.  Its text in the format "t" loads like the plain one unless
    a real part stands before a negative imaginary part: then it does not load. *)
Theorem C122_decimal : forall fp e t0 dr di lr nr xr mr li ni xi mi,
  e_type e = [t0] -> is_byte t0 -> e_data e = Buf true (dr ++ di) -> nth 0 dr 0 mod 64 = 12 -> nth 0 di 0 mod 64 = 12 ->
  length dr = 9%nat -> wf_bytes dr -> length di = 9%nat -> wf_bytes di ->
  stored_real lr nr xr mr dr -> short xr mr -> stored_real li ni xi mi di -> short xi mi ->
  exists s st, complex_text e = oret s /\ complex_t e = oret st /\
    (mr = 0 \/ ni = false -> complex_load fp st e = complex_load fp s e) /\
    (mr <> 0 -> ni = true -> exists w, complex_load fp st e = (w, Err ValueError)).
Proof.
  intros fp e t0 dr di lr nr xr mr li ni xi mi ET B0 ED T1 T2 L1 W1 L2 W2 SR ShR SI ShI.
  destruct (part_shape fp lr nr xr mr dr SR ShR) as (A & dr' & PA & XA & OA & ZA & CA & ua & la & EA & DA).
  destruct (part_shape fp li ni xi mi di SI ShI) as (B & di' & PB & XB & OB & ZB & CB & _).
  assert (K : In (KReal, 12, KComplex) part_kinds) by now left.
  destruct (get_parts e dr di KReal 12 KComplex KReal 12 KComplex ED L1 W1 L2 W2 K K T1 T2) as [GR GI].
  assert (LD : length (dr ++ di) = 18%nat) by (rewrite app_length; lia). assert (WD : wf_bytes (dr ++ di)) by (now apply wf_bytes_app).
  assert (N1 : nth 0 (dr ++ di) 0 mod 64 = 12) by (rewrite app_nth1 by lia; exact T1).
  assert (N2 : nth 9 (dr ++ di) 0 mod 64 = 12) by (rewrite app_nth2 by lia; rewrite L1; exact T2).
  destruct (C122_pieces KReal nr A ni B PA PB) as (P1 & P2). cbv zeta in P1, P2.
  set (a := sg nr ++ A) in *. set (b := sg ni ++ B) in *. set (s := complex_show a KReal b) in *.
  assert (CT : complex_text e = oret s).
  { unfold complex_text. rewrite GR, obind_oret. cbn [r_cls r_buf]. rewrite XA. unfold olift at 1. rewrite obind_ret_l, GI, obind_oret. cbn [r_cls r_buf]. rewrite XB. unfold olift. now rewrite obind_ret_l. }
  exists s, (complex_accessible s). split; [exact CT|]. split; [unfold complex_t; now rewrite CT, obind_oret|]. split.
  - intros H. assert (NM : ~ misread a KReal b).
    { intros [(_ & [Q|Q] & _)|[(Q & _ & E)|(_ & _ & [Q|Q] & _)]]; try discriminate Q. destruct H as [H|H]; [apply Q; now apply ZA|].
      unfold b in E. rewrite H in E. cbn [sg app] in E. apply (plain_not 45 _ PB); [inset|]. rewrite E. now left. }
    assert (SA : signed_plain a) by (exists A; split; [exact PA|]; unfold a; destruct nr; [now right|now left]). assert (SB : signed_plain b) by (exists B; split; [exact PB|]; unfold b; destruct ni; [now right|now left]).
    apply (C108_pieces_iff a KReal 12 KComplex b SA SB K) in NM. fold s in NM.
    assert (NT : complex_parts (complex_accessible s) = Ok (map tilde a, map tilde b)) by (apply P1; [destruct H as [H|H]; [left; now apply ZA|auto]|exact NM]).
    pose proof (tilde_own fp a dr' (decimal_squash a CA) OA) as (OA1 & OA2 & OA3). pose proof (tilde_own fp b di' (decimal_squash b CB) OB) as (OB1 & OB2 & OB3).
    destruct OA as (OA & LA & WA), OB as (OB & LB & WB).
    destruct (complex_load_gen fp _ e t0 _ a b KReal 12 KComplex KReal 12 KComplex dr' NM ET B0 ED LD WD K K N1 N2 OA LA WA) as [G _].
    destruct (complex_load_gen fp _ e t0 _ _ _ KReal 12 KComplex KReal 12 KComplex dr' NT ET B0 ED LD WD K K N1 N2 OA1 OA2 OA3) as [G' _].
    now rewrite (G di' OB LB WB), (G' di' OB1 OB2 OB3).
  - intros Mr Ni. assert (NZ : a <> s2l "0") by (intros X; apply Mr; now apply ZA). specialize (P2 NZ Ni (or_introl eq_refl)).
    set (Y := if leqb B (s2l "1") then [] else B) in *.
    assert (O0 : own fp KReal (s2l "0") [0; 128; 0; 0; 0; 0; 0; 0; 0]) by (split; [vm_compute; reflexivity|]; split; [reflexivity|apply wf_bytesb_spec; reflexivity]). destruct O0 as (O1 & O2 & O3).
    destruct (complex_load_gen fp _ e t0 _ _ _ KReal 12 KComplex KReal 12 KComplex _ P2 ET B0 ED LD WD K K N1 N2 O1 O2 O3) as [_ G].
    exists []. apply G. assert (E : map tilde a ++ s2l "~" ++ Y = map tilde ua ++ la :: 126 :: Y).
    { rewrite EA, map_app. cbn [map]. unfold tilde at 2. replace (la =? 45) with false by lia. rewrite <- app_assoc. reflexivity. }
    rewrite E. unfold real_new. change (real_fresh KReal) with (@oret buffer (Buf true (zeros 9))). rewrite obind_oret. cbn [part_load]. unfold real_load. rewrite inner_sign; [reflexivity|exact DA|].
    intros c I. apply in_app_or in I as [I|I].
    + apply in_map_iff in I as (y & Q & I). assert (DY : decimal_char y) by (apply CA; rewrite EA; apply in_or_app; now left). unfold tilde in Q. destruct (Z.eqb_spec y 45); [right; lia|left; now subst y].
    + left. apply CB. unfold b. apply in_or_app. right. unfold Y in I. destruct (leqb B (s2l "1")); [destruct I|exact I].
Qed.
Print Assumptions C122_decimal.
(** ** Lists and matrices of decimal numbers *)
Lemma elems_real ns ps fp ds : names_ok ns -> Forall decimal ds ->
  exists zs ts, omapM (elem_new ns ps KRealEntry true) ds = oret zs /\ length zs = length ds /\ Forall wf_element zs /\ texts_of zs = Ok ts /\ Forall (fun t => ~ In 47 t /\ rereadable fp t) ts.
Proof.
  intros N F. induction F as [|d ds D F (zs & ts & E & LZ & W & T & R)]; [exists [], []; repeat split; constructor|].
  destruct (elem_new_real ns ps N KReal d (decimal_payload d D)) as (e & X & C & DD & _). pose proof (decimal_payload d D) as (_ & WD & _).
  destruct D as (neg & x & m & S & Sh). destruct (C105_decimal fp KReal 0 neg x m d S Sh (or_introl eq_refl)) as (d' & (t & T' & _ & G & _) & _ & I). cbn [fst snd] in T', G.
  assert (WE : wf_element e) by (unfold wf_element; unfold calc_data in DD; now rewrite DD).
  assert (TE : real_text (e_cls e) (e_data e) = Ok t) by (rewrite real_text_data; unfold calc_data in DD; now rewrite DD, C).
  exists (e :: zs), (t :: ts). split; [cbn [omapM]; now rewrite X, obind_oret, E|]. split; [cbn [length]; now rewrite LZ|]. split; [now constructor|].
  split; [cbn [texts_of]; rewrite TE; cbn [rbind]; now rewrite T|]. constructor; [|exact R]. split.
  - intros J. pose proof (text_chars _ _ _ WE TE _ J) as Q. rewrite C in Q. unfold may_show in Q. lia.
  - exists KReal, d'. split; [discriminate|]. split; [discriminate|]. exact G.
Qed.
Theorem C120_exact : forall ns ps fp e ds e0 D, refuses_typed fp -> refuses_signs fp -> refuses_calls fp ->
  names_ok ns -> e_cls e = KRealList -> flash_entry e -> data e = concat ds -> Forall decimal ds -> ds <> [] -> zlen ds < 65536 ->
  e_cls e0 = KRealList -> flash_entry e0 -> e_data e0 = Buf true D -> (2 <= length D)%nat ->
  exists st e1, list_t ns ps e = oret st /\ list_load_string ns ps fp st e0 = (if 999 <? zlen ds then [WListLength] else [], Ok e1) /\
    data e1 = data e /\ list_length e1 = zlen ds.
Proof.
  intros ns ps fp e ds e0 D R1 R2 R3 N K FE DE F NE Z K0 FE0 ED LD. destruct (elems_real ns ps fp ds N F) as (zs & ts & E & LZ & W & T & R).
  assert (LE : list_elems ns ps e = oret zs).
  { unfold list_elems. rewrite K, DE, (flash_has' e FE). rewrite chunks_concat; [exact E|vm_compute; lia|]. eapply Forall_impl; [|exact F]. intros d Q. exact (proj1 (decimal_payload d Q)). }
  destruct (C120_list ns ps fp e zs ts R1 R2 R3 LE) as (s & st & S & ST & _ & L); [intros ->; destruct ds; [congruence|discriminate LZ]|exact W|exact T|exact R|].
  destruct (C105_exact ns ps fp e ds e0 D N K FE DE F NE Z K0 FE0 ED LD) as (s' & e1 & S' & L' & Q). assert (s' = s) as -> by (rewrite S in S'; now injection S').
  exists st, e1. split; [exact ST|]. split; [now rewrite L|exact Q].
Qed.
Print Assumptions C120_exact.
Theorem C121_exact : forall ns ps fp e rows w e0 a b D, refuses_typed fp -> refuses_signs fp -> refuses_calls fp -> names_ok ns -> e_cls e = KMatrix -> flash_entry e ->
  e_data e = Buf true (w :: zlen rows :: concat (concat rows)) -> 1 <= w <= 255 -> rows <> [] -> zlen rows <= 255 ->
  Forall (fun r => zlen r = w) rows -> Forall (Forall decimal) rows ->
  e_cls e0 = KMatrix -> flash_entry e0 -> e_data e0 = Buf true (a :: b :: D) -> is_byte b ->
  exists st e1 ws, matrix_t ns ps e = oret st /\ matrix_load_string ns ps fp st e0 = (ws, Ok e1) /\ calc_data e1 = calc_data e.
Proof.
  intros ns ps fp e rows w e0 a b D R1 R2 R3 N K FE DE HW NE HH RW F K0 FE0 ED Bb.
  assert (G : exists m ts, omapM (omapM (elem_new ns ps KRealEntry true)) rows = oret m /\ map (@length entry) m = map (@length bytes) rows /\ Forall (Forall wf_element) m /\ rows_of m = Ok ts /\
    Forall (Forall (fun t => ~ In 47 t /\ rereadable fp t)) ts).
  { clear - N F. induction F as [|r rows R F (m & ts & E & LM & W & T & Q)]; [exists [], []; repeat split; constructor|]. destruct (elems_real ns ps fp r N R) as (zs & us & E0 & L0 & W0 & T0 & Q0).
    exists (zs :: m), (us :: ts). split; [cbn [omapM]; now rewrite E0, obind_oret, E|]. split; [cbn [map]; now rewrite L0, LM|]. split; [now constructor|].
    split; [cbn [rows_of]; rewrite T0; cbn [rbind]; now rewrite T|now constructor]. }
  destruct G as (m & ts & E & LM & W & T & R).
  assert (WE : width e = w).
  { unfold width, view_get. rewrite DE. cbn [v_start v_stop b_data].
    rewrite py_slice_nn by (rewrite ?zlen_cons; pose proof (zlen_nonneg (concat (concat rows))); lia). change (w + 0 = w). lia. }
  assert (DD : data e = concat (concat rows)).
  { unfold data. rewrite K, DE. change (data_view KMatrix) with (View (Some 2) None, DBytes). cbn [fst]. unfold view_get. cbn [v_start v_stop b_data].
    now rewrite py_slice_from by lia. }
  assert (LE : matrix_rows ns ps e = oret m).
  { unfold matrix_rows. rewrite WE, DD, (flash_has' e FE), (chunks_concat 9); [rewrite chunks_concat; [exact E|lia|]|lia|].
    - eapply Forall_impl; [|exact RW]. cbn beta. intros r Hr. unfold zlen in Hr. lia.
    - apply Forall_concat. eapply Forall_impl; [|exact F]. intros r. apply Forall_impl. intros d Q. exact (proj1 (decimal_payload d Q)). }
  destruct (C121_matrix ns ps fp e m ts R1 R2 R3 LE) as (s & st & S & ST & _ & L); [intros ->; destruct rows; [congruence|discriminate LM]| |exact W|exact T|exact R|].
  { clear - LM RW HW. revert m LM. induction RW as [|r rows Q RW IH]; intros [|z m] LM; try discriminate LM; [constructor|]. injection LM as L0 LM. constructor; [|now apply IH].
    intros ->. unfold zlen in Q. destruct r; [cbn in Q; lia|discriminate L0]. }
  destruct (C106_exact ns ps fp e rows w e0 a b D N K FE DE HW NE HH RW F K0 FE0 ED Bb) as (s' & e1 & ws & S' & L' & Q). assert (s' = s) as -> by (rewrite S in S'; now injection S').
  exists st, e1, ws. split; [exact ST|]. split; [now rewrite L|exact Q].
Qed.
Print Assumptions C121_exact.
(** ** Concrete numbers *)
Lemma fraction1_refuses c s : In c s -> c <> 47 -> (forall p, In c p -> parse_int 10 p = Err ValueError) -> exists x, fraction1 s = Err x /\ (x = TypeError \/ x = ValueError).
Proof.
  intros I N G. destruct (in_split c 47 s N I) as (p & P & Q). apply G in Q. unfold fraction1, fraction0.
  destruct (split_on 47 s) as [|a [|b [|? ?]]]; [destruct P| | |].
  - destruct P as [<-|[]]. rewrite Q. eauto.
  - destruct P as [<-|[<-|[]]]; rewrite Q; [eauto|]. destruct (parse_int 10 a); eauto.
  - eauto.
Qed.
Lemma fraction1_typed : refuses_typed fraction1.
Proof.
  intros s [I|I]; [apply (fraction1_refuses 126 s I); [lia|]|apply (fraction1_refuses 110 s I); [lia|exact letter_parse]].
  intros p P. apply (parse_foreign 126); auto; lia.
Qed.
Lemma fraction1_calls : refuses_calls fraction1.
Proof. intros s I. apply (fraction1_refuses 40 s I); [lia|]. intros p. apply alien_parse. now right. Qed.

(** One half is typed "1n/d2", which does not load; -3.5 is typed "~3.5", which does;
    minus two as a fraction is typed "~2", which does not. *)
Definition minus_two : bytes := [152; 128; 32; 0; 0; 0; 0; 0; 0].
Definition one_half : bytes := [24; 127; 80; 0; 0; 0; 0; 0; 0].
Example C119_example : refuses_typed fraction1 /\
  (real_text KRealFraction (Buf true one_half) = Ok (s2l "1/2") /\ real_t KRealFraction (Buf true one_half) = Ok (s2l "1n/d2") /\
   part_load fraction1 KRealFraction (s2l "1n/d2") (Buf true (zeros 9)) = (Buf true (zeros 9), oerr ValueError)) /\
  (real_t KReal (Buf true [128; 128; 53; 0; 0; 0; 0; 0; 0]) = Ok (s2l "~3.5") /\
   part_load fraction1 KReal (s2l "~3.5") (Buf true (zeros 9)) = (Buf true [128; 128; 53; 0; 0; 0; 0; 0; 0], oret tt)) /\
  (real_text KRealFraction (Buf true minus_two) = Ok (s2l "-2") /\ real_t KRealFraction (Buf true minus_two) = Ok (s2l "~2") /\
   part_load fraction1 KRealFraction (s2l "~2") (Buf true (zeros 9)) = (Buf true (zeros 9), oerr ValueError)) /\
  (real_text KRealRadical (Buf true (rad_buf 28 0 1 3 0 7 1)) = Ok (s2l "3" ++ [ROOT] ++ s2l "7") /\ real_t KRealRadical (Buf true (rad_buf 28 0 1 3 0 7 1)) = Ok (s2l "3sqrt(7)") /\
   part_load fraction1 KRealRadical (s2l "3sqrt(7)") (Buf true (zeros 9)) = part_load fraction1 KRealRadical (s2l "3" ++ [ROOT] ++ s2l "7") (Buf true (zeros 9))) /\
  real_t KRealRadical (Buf true (rad_buf 28 2 4 3 12 7 5)) = Ok (s2l "(3sqrt(7)~12sqrt(5))n/d4").
Proof.
  split; [exact fraction1_typed|]. split; [split; [vm_compute; reflexivity|]; split; vm_compute; reflexivity|]. split; [split; vm_compute; reflexivity|].
  split; [split; [vm_compute; reflexivity|]; split; vm_compute; reflexivity|]. split; [split; [vm_compute; reflexivity|]; split; vm_compute; reflexivity|]. vm_compute. reflexivity.
Qed.
(** Each root sign with the digits behind it becomes a call of sqrt; nothing else changes. *)
Fixpoint rooted (open close : str) (ps : list (str * str)) : str :=
  match ps with [] => [] | (ds, t) :: r => open ++ ds ++ close ++ t ++ rooted open close r end.
Definition piece_ok (p : str * str) : Prop :=
  Forall (fun c => 48 <= c <= 57) (fst p) /\ ~ In ROOT (snd p) /\ (forall c r, snd p = c :: r -> ~ 48 <= c <= 57).
Lemma calls_plain t : ~ In ROOT t -> forall s, sqrt_calls false (t ++ s) = t ++ sqrt_calls false s.
Proof.
  induction t as [|c t IH]; intros N s; [reflexivity|]. cbn [app sqrt_calls andb]. replace (c =? ROOT) with false by (symmetry; apply Z.eqb_neq; intros ->; apply N; now left).
  f_equal. apply IH. intros I. apply N. now right.
Qed.
Lemma calls_digits ds : Forall (fun c => 48 <= c <= 57) ds -> forall s, sqrt_calls true (ds ++ s) = ds ++ sqrt_calls true s.
Proof.
  induction 1 as [|c ds C D IH]; intros s; [reflexivity|]. cbn [app sqrt_calls]. replace (true && (48 <=? c) && (c <=? 57)) with true by lia. f_equal. apply IH.
Qed.
Lemma calls_close s : (forall c r, s = c :: r -> ~ 48 <= c <= 57) -> sqrt_calls true s = s2l ")" ++ sqrt_calls false s.
Proof.
  intros H. destruct s as [|c s]; [reflexivity|]. specialize (H c s eq_refl). cbn [sqrt_calls]. replace (true && (48 <=? c) && (c <=? 57)) with false by lia. reflexivity.
Qed.
Theorem C119_calls : forall t ps, ~ In ROOT t -> Forall piece_ok ps ->
  sqrt_calls false (t ++ rooted [ROOT] [] ps) = t ++ rooted (s2l "sqrt(") (s2l ")") ps.
Proof.
  intros t ps NT F. rewrite calls_plain by exact NT. f_equal. clear t NT. induction F as [|(ds, t) ps (D & N & C) F IH]; [reflexivity|]. cbn [rooted fst snd] in *.
  change (sqrt_calls false ([ROOT] ++ ds ++ [] ++ t ++ rooted [ROOT] [] ps)) with (s2l "sqrt(" ++ sqrt_calls true (ds ++ t ++ rooted [ROOT] [] ps)). f_equal.
  rewrite calls_digits by exact D. f_equal. rewrite calls_close; [f_equal; rewrite calls_plain by exact N; now rewrite IH|].
  intros c r E. destruct t as [|c' t]; [|injection E as <- _; now apply (C c' t)]. destruct ps as [|(ds', t') ps]; [discriminate E|]. injection E as <- _. unfold ROOT. lia.
Qed.
Print Assumptions C119_calls.
Example C119_calls_ex : sqrt_calls false (s2l "(3" ++ rooted [ROOT] [] [(s2l "7", s2l "+2"); (s2l "11", s2l ")/5")]) = s2l "(3sqrt(7)+2sqrt(11))/5" /\ Forall piece_ok [(s2l "7", s2l "+2"); (s2l "11", s2l ")/5")].
Proof.
  split; [vm_compute; reflexivity|]. repeat constructor; cbn; try lia; try (intros I; unfold ROOT in I; lia); intros c r E; injection E as <- _; lia.
Qed.
(** Numbers whose plain text loads and whose typed text does not. *)
Theorem C119_loads_refuted : exists c b s st b1 x, real_text c b = Ok s /\ real_t c b = Ok st /\ part_load fraction1 c s b = (b1, oret tt) /\ b1 = b /\ part_load fraction1 c st b = (b, oerr x).
Proof.
  exists KRealFraction, (Buf true one_half). do 4 eexists. split; [vm_compute; reflexivity|]. split; [vm_compute; reflexivity|]. split; [vm_compute; reflexivity|]. split; [reflexivity|]. vm_compute. reflexivity.
Qed.
Print Assumptions C119_loads_refuted.
(** The list of -0.25, 3 roots of 7 and -3.7 pi; and that of 1/2 and 2. *)
Definition slashless : entry := with_data (list0 KRealList 1) (Buf true ([3; 0] ++ [128; 127; 37; 0; 0; 0; 0; 0; 0] ++ rad_buf 28 0 1 3 0 7 1 ++ [160; 128; 55; 0; 0; 0; 0; 0; 0])).
Definition barred : entry := with_data (list0 KRealList 1) (Buf true ([2; 0] ++ one_half ++ [0; 128; 32; 0; 0; 0; 0; 0; 0])).
Example C120_example :
  list_t ns0 ps0 slashless = oret (s2l "{~0.25,3sqrt(7),~3.7" ++ [960] ++ s2l "}") /\
  (exists ts, (do zs := list_elems ns0 ps0 slashless in olift (texts_of zs)) = oret ts /\ length ts = 3%nat /\ Forall (fun t => ~ In 47 t /\ rereadable fraction1 t) ts) /\
  (exists e1, list_load_string ns0 ps0 fraction1 (s2l "{~0.25,3sqrt(7),~3.7" ++ [960] ++ s2l "}") (list0 KRealList 1) = oret e1 /\ data e1 = data slashless) /\
  list_t ns0 ps0 barred = oret (s2l "{1n/d2,2}") /\ list_text ns0 ps0 barred = oret (s2l "[1/2, 2]") /\
  list_load_string ns0 ps0 fraction1 (s2l "{1n/d2,2}") (list0 KRealList 1) = ([], Err ValueError) /\
  (exists e1, list_load_string ns0 ps0 fraction1 (s2l "[1/2, 2]") (list0 KRealList 1) = oret e1 /\ data e1 = data barred).
Proof.
  split; [vm_compute; reflexivity|]. split.
  { eexists. split; [vm_compute; reflexivity|]. split; [reflexivity|]. assert (RD : forall k t d d', k <> KRealFraction -> k <> KRealPiFraction -> memb 47 t = false ->
      real_of_text fraction1 t = Ok (Real k (Buf true d)) -> real_of_text fraction1 (32 :: t) = Ok (Real k (Buf true d')) -> d = d' -> ~ In 47 t /\ rereadable fraction1 t).
    { intros k t d d' K1 K2 M E1 E2 <-. split; [now apply memb_false|]. exists k, d. split; [exact K1|]. split; [exact K2|]. intros sp [->| ->]; eauto. }
    constructor; [|constructor; [|constructor; [|constructor]]].
    - apply (RD KReal _ [128; 127; 37; 0; 0; 0; 0; 0; 0] [128; 127; 37; 0; 0; 0; 0; 0; 0]); try discriminate; vm_compute; reflexivity.
    - apply (RD KRealRadical _ (rad_buf 28 0 1 3 0 7 1) (rad_buf 28 0 1 3 0 7 1)); try discriminate; vm_compute; reflexivity.
    - apply (RD KRealPi _ [160; 128; 55; 0; 0; 0; 0; 0; 0] [160; 128; 55; 0; 0; 0; 0; 0; 0]); try discriminate; vm_compute; reflexivity. }
  split; [eexists; split; vm_compute; reflexivity|]. split; [vm_compute; reflexivity|]. split; [vm_compute; reflexivity|]. split; [vm_compute; reflexivity|]. eexists. split; vm_compute; reflexivity.
Qed.
Theorem C120_loads_refuted : exists e s st e1 w x, list_text ns0 ps0 e = oret s /\ list_t ns0 ps0 e = oret st /\ list_load_string ns0 ps0 fraction1 s e = oret e1 /\ data e1 = data e /\
  list_load_string ns0 ps0 fraction1 st e = (w, Err x).
Proof. exists barred. do 5 eexists. split; [vm_compute; reflexivity|]. split; [vm_compute; reflexivity|]. split; [vm_compute; reflexivity|]. split; vm_compute; reflexivity. Qed.
Print Assumptions C120_loads_refuted.
Definition decimals22 : entry := with_data (list0 KMatrix 2) (Buf true ([2; 2] ++
  [0; 128; 16; 0; 0; 0; 0; 0; 0] ++ [128; 127; 37; 0; 0; 0; 0; 0; 0] ++ [128; 128; 80; 0; 0; 0; 0; 0; 0] ++ [0; 130; 18; 52; 86; 0; 0; 0; 0])).
Example C121_example : matrix_t ns0 ps0 decimals22 = oret (s2l "[[1,~0.25][~5,123.456]]") /\
  (exists e1, matrix_load_string ns0 ps0 fraction1 (s2l "[[1,~0.25][~5,123.456]]") (list0 KMatrix 2) = oret e1 /\ calc_data e1 = calc_data decimals22) /\
  matrix_t ns0 ps0 mat22 = oret (s2l "[[1,~0.25][1n/d2,123.456]]") /\
  matrix_load_string ns0 ps0 fraction1 (s2l "[[1,~0.25][1n/d2,123.456]]") (list0 KMatrix 2) = ([], Err ValueError) /\
  refuses_typed fraction1 /\ refuses_signs fraction1 /\ refuses_calls fraction1.
Proof.
  split; [vm_compute; reflexivity|]. split; [eexists; split; vm_compute; reflexivity|]. split; [vm_compute; reflexivity|]. split; [vm_compute; reflexivity|].
  split; [exact fraction1_typed|]. split; [exact fraction1_signs|exact fraction1_calls].
Qed.
Theorem C121_loads_refuted : exists e s st e1 w x, matrix_text ns0 ps0 e = oret s /\ matrix_t ns0 ps0 e = oret st /\ matrix_load_string ns0 ps0 fraction1 s e = oret e1 /\ calc_data e1 = calc_data e /\
  matrix_load_string ns0 ps0 fraction1 st e = (w, Err x).
Proof. exists mat22. do 5 eexists. split; [vm_compute; reflexivity|]. split; [vm_compute; reflexivity|]. split; [vm_compute; reflexivity|]. split; vm_compute; reflexivity. Qed.
Print Assumptions C121_loads_refuted.
(** 1 - 2i is typed "1~2[i]", which does not load; -1 + 2i is typed "~1+2[i]", which does. *)
Definition re1 : bytes := [12; 128; 16; 0; 0; 0; 0; 0; 0].
Definition im2 : bytes := [140; 128; 32; 0; 0; 0; 0; 0; 0].
Example C122_example :
  (let e := parts18 re1 im2 in complex_text e = oret (s2l "1 - 2i") /\ complex_t e = oret (s2l "1~2[i]") /\ complex_load fraction1 (s2l "1~2[i]") e = ([], Err ValueError) /\ back e = oret (calc_data e) /\
   stored_real 12 false 128 10000000000000 re1 /\ short 128 10000000000000 /\ stored_real 12 true 128 20000000000000 im2 /\ short 128 20000000000000) /\
  (let e := parts18 [140; 128; 16; 0; 0; 0; 0; 0; 0] [12; 128; 32; 0; 0; 0; 0; 0; 0] in complex_text e = oret (s2l "-1 + 2i") /\ complex_t e = oret (s2l "~1+2[i]") /\
   exists e1, complex_load fraction1 (s2l "~1+2[i]") e = oret e1 /\ calc_data e1 = calc_data e) /\
  (let e := parts18 [12; 128; 0; 0; 0; 0; 0; 0; 0] [140; 128; 32; 0; 0; 0; 0; 0; 0] in complex_t e = oret (s2l "~2[i]") /\
   exists e1, complex_load fraction1 (s2l "~2[i]") e = oret e1 /\ calc_data e1 = calc_data e).
Proof.
  assert (SR : forall low neg x m d, 0 <= low < 128 -> is_byte x -> 10 ^ 13 <= m < 10 ^ 14 -> d = b_data (stored low neg x m) -> stored_real low neg x m d).
  { intros low neg x m d HL X M ->. split; [exact HL|]. split; [|split; [exact X|now left]]. rewrite <- (Z.mod_small low 128) at 1 by lia. apply stored_payload. lia. }
  split; [|split].
  - cbv zeta. split; [vm_compute; reflexivity|]. split; [vm_compute; reflexivity|]. split; [vm_compute; reflexivity|]. split; [vm_compute; reflexivity|].
    split; [apply SR; try lia; [unfold is_byte; lia|vm_compute; reflexivity]|]. split; [intros H; lia|]. split; [apply SR; try lia; [unfold is_byte; lia|vm_compute; reflexivity]|intros H; lia].
  - cbv zeta. split; [vm_compute; reflexivity|]. split; [vm_compute; reflexivity|]. eexists. split; vm_compute; reflexivity.
  - cbv zeta. split; [vm_compute; reflexivity|]. eexists. split; vm_compute; reflexivity.
Qed.
Theorem C122_loads_refuted : exists e s st w, complex_text e = oret s /\ complex_t e = oret st /\ back e = oret (calc_data e) /\ complex_load fraction1 st e = (w, Err ValueError).
Proof. exists (parts18 re1 im2). do 3 eexists. split; [vm_compute; reflexivity|]. split; [vm_compute; reflexivity|]. split; vm_compute; reflexivity. Qed.
Print Assumptions C122_loads_refuted.
Print Assumptions C119_number.
