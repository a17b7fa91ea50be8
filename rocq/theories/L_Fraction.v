(** Lemmas about the texts of fractions. *)
From Verif Require Import PyBase M_Fraction L_Base S_Real L_Real L_Radical S_Float S_Fraction.

Definition stops (t : str) : Prop := match t with c :: _ => ascii_digit c = false /\ c <> 95 | [] => True end.
Lemma ascii_digit_of d : digit d -> ascii_digit (d + 48) = true.
Proof. unfold digit, ascii_digit. lia. Qed.
Lemma run_starts u ds t : digit_run u ds -> starts_digit (u ++ t) = true /\ ds <> [] /\ Forall digit ds /\ zlen ds <= zlen u.
Proof.
  induction 1 as [d D|d u ds D R (IH & NE & F & L)|d u ds D R (IH & NE & F & L)]; cbn [app starts_digit]; (split; [now apply ascii_digit_of|]); (split; [discriminate|]).
  - split; [now constructor|rewrite !zlen_cons; lia].
  - split; [now constructor|]. rewrite !zlen_cons. lia.
  - split; [now constructor|]. rewrite !zlen_cons. lia.
Qed.
Lemma grouped_stop prev t : stops t -> grouped prev t = ([], t).
Proof. destruct t as [|c t]; [reflexivity|]. intros [A B]. cbn [grouped]. rewrite A. replace (c =? 95) with false by lia. rewrite andb_false_r. reflexivity. Qed.
Lemma grouped_run u ds t : digit_run u ds -> stops t -> forall prev, grouped prev (u ++ t) = (ds, t).
Proof.
  intros R S. induction R as [d D|d u ds D R IH|d u ds D R IH]; intros prev; cbn [app grouped]; rewrite (ascii_digit_of d D); replace (d + 48 - 48) with d by lia.
  - rewrite (grouped_stop true t S). reflexivity.
  - rewrite IH. reflexivity.
  - change (ascii_digit 95) with false. cbn [andb]. change (95 =? 95) with true. rewrite (proj1 (run_starts u ds t R)), IH. reflexivity.
Qed.
Lemma grouped_inv s : forall prev ds t, grouped prev s = (ds, t) ->
  (ds = [] /\ t = s) \/ (exists u, digit_run u ds /\ s = u ++ t) \/ (prev = true /\ exists u, digit_run u ds /\ s = 95 :: u ++ t).
Proof.
  induction s as [|c s IH]; intros prev ds t E; cbn [grouped] in E; [injection E as <- <-; now left|].
  destruct (ascii_digit c) eqn:A.
  - destruct (grouped true s) as [ds' t'] eqn:G. injection E as <- <-. right. left. assert (D : digit (c - 48)) by (unfold ascii_digit in A; unfold digit; lia).
    assert (C : c = c - 48 + 48) by lia. destruct (IH true ds' t' G) as [[-> ->]|[(u & R & ->)|(_ & u & R & ->)]].
    + exists [c]. split; [rewrite C; replace (c - 48 + 48 - 48) with (c - 48) by lia; now constructor|reflexivity].
    + exists (c :: u). split; [rewrite C at 1; now constructor|reflexivity].
    + exists (c :: 95 :: u). split; [rewrite C at 1; now constructor|reflexivity].
  - destruct (prev && (c =? 95) && starts_digit s) eqn:B; [|injection E as <- <-; now left].
    apply andb_true_iff in B as [B S]. apply andb_true_iff in B as [-> B]. assert (c = 95) as -> by lia. right. right. split; [reflexivity|].
    destruct (IH false ds t E) as [[-> ->]|[(u & R & ->)|(Q & _)]]; [|now exists u|discriminate Q].
    exfalso. destruct s as [|d s]; [discriminate S|]. cbn [starts_digit] in S. cbn [grouped] in E. rewrite S in E. destruct (grouped true s). discriminate E.
Qed.
Lemma int_of_number ds : zlen ds <= 4300 -> int_of ds = Ok (number ds).
Proof.
  intros L. unfold int_of. replace (4300 <? zlen ds) with false by lia. f_equal. unfold number. generalize 0. clear L. induction ds as [|d ds IH]; intros v; [reflexivity|]. cbn [fold_left]. rewrite IH. f_equal. lia.
Qed.
Lemma lowest_spec neg n d : 0 < d -> exists N D, lowest neg n d = Ok (N, D) /\ lowest_of (if neg then - n else n) d N D.
Proof.
  intros P. unfold lowest. replace (d =? 0) with false by lia. set (m := if neg then - n else n). assert (G : 0 < Z.gcd m d) by (pose proof (Z.gcd_nonneg m d); assert (Z.gcd m d <> 0) by (intros E; apply Z.gcd_eq_0 in E; lia); lia).
  exists (m / Z.gcd m d), (d / Z.gcd m d). split; [reflexivity|]. destruct (Z.gcd_divide_l m d) as [a A]. destruct (Z.gcd_divide_r m d) as [b B]. split; [|split].
  - rewrite B at 1. rewrite Z.div_mul by lia. nia.
  - apply Z.gcd_div_gcd; lia.
  - set (g := Z.gcd m d) in *. clearbody g. rewrite A, B. rewrite !Z.div_mul by lia. ring.
Qed.
Definition unsigned (t : str) : Prop := match t with c :: _ => c <> 43 /\ c <> 45 | [] => True end.
Lemma starts_unsigned t : starts_digit t = true -> unsigned t.
Proof. destruct t as [|c t]; [discriminate|]. cbn. unfold ascii_digit. lia. Qed.
Lemma sign_of_app sign t : In sign [[]; [43]; [45]] -> unsigned t -> sign_of (sign ++ t) = (leqb sign [45], t).
Proof.
  intros [<-|[<-|[<-|[]]]] U; [|reflexivity|reflexivity]. destruct t as [|c t]; [reflexivity|]. destruct U. cbn [app sign_of].
  replace (c =? 45) with false by lia. replace (c =? 43) with false by lia. reflexivity.
Qed.
Lemma sign_of_inv s b r : sign_of s = (b, r) -> exists sign, In sign [[]; [43]; [45]] /\ s = sign ++ r /\ b = leqb sign [45].
Proof.
  destruct s as [|c s]; cbn [sign_of]; [intros E; injection E as <- <-; exists []; cbn; auto|].
  destruct (c =? 45) eqn:M; [|destruct (c =? 43) eqn:P]; intros E; injection E as <- <-.
  - exists [45]. replace c with 45 by lia. cbn; auto.
  - exists [43]. replace c with 43 by lia. cbn; auto.
  - exists []. cbn; auto.
Qed.
Lemma exponent_of_form x k : exponent_form x k -> exists b xs, exponent_of x = Some (b, xs) /\ zlen xs <= zlen x /\ Forall digit xs /\ k = (if b then - number xs else number xs) /\
  stops x /\ (forall r, x <> 47 :: r) /\ (forall r, x <> 46 :: r).
Proof.
  intros [|c sign t ds C S R].
  - exists false, []. repeat split; try discriminate; try constructor; cbn; lia.
  - exists (leqb sign [45]), ds. destruct (run_starts t ds [] R) as (ST & NE & F & L). rewrite app_nil_r in ST. pose proof (grouped_run t ds [] R I false) as G. rewrite app_nil_r in G.
    assert (E : exponent_of (c :: sign ++ t) = Some (leqb sign [45], ds)).
    { cbn [exponent_of]. replace ((c =? 69) || (c =? 101)) with true by lia. destruct ds as [|d ds]; [contradiction|].
      rewrite (sign_of_app sign t S) by (apply starts_unsigned; exact ST). rewrite G. reflexivity. }
    split; [exact E|]. rewrite zlen_cons, zlen_app. pose proof (zlen_nonneg sign). split; [lia|]. split; [exact F|]. split; [reflexivity|]. split; [split; [unfold ascii_digit; lia|lia]|]. split; intros r Q; injection Q as Q _; lia.
Qed.

Lemma exponent_of_inv x b xs : exponent_of x = Some (b, xs) -> exponent_form x (if b then - number xs else number xs).
Proof.
  destruct x as [|c x]; cbn [exponent_of]; [intros E; injection E as <- <-; constructor|].
  destruct ((c =? 69) || (c =? 101)) eqn:C; [|discriminate]. destruct (sign_of x) as [neg r] eqn:S. destruct (grouped false r) as [ds t] eqn:G.
  destruct ds as [|d ds]; [discriminate|]. destruct t; [|discriminate]. intros E. injection E as <- <-.
  destruct (sign_of_inv x neg r S) as (sign & I & -> & ->). destruct (grouped_inv r false _ _ G) as [[Q _]|[(u & R & ->)|(Q & _)]]; try discriminate Q.
  rewrite app_nil_r. constructor; [lia|exact I|exact R].
Qed.
Lemma up_neg v : 0 <= v -> up 10 (- v) = 1 /\ up 10 v = 10 ^ v.
Proof. unfold up. intros. split; [rewrite Z.max_r by lia; reflexivity|rewrite Z.max_l by lia; reflexivity]. Qed.
(** What [unsigned_fraction] does with a number without a slash. *)
Lemma dotless_case r (A : Type) (b : A) (c : str -> A) : (forall x, r <> 47 :: x) ->
  match r with 47 :: x => c x | _ => b end = b.
Proof.
  intros N. destruct r as [|z r]; [reflexivity|]. destruct z as [|p|p]; try reflexivity.
  do 6 (destruct p as [p|p|]; try reflexivity). exfalso. now apply (N r).
Qed.
Lemma pointless_case r (A : Type) (b : A) (c : str -> A) : (forall x, r <> 46 :: x) ->
  match r with 46 :: x => c x | _ => b end = b.
Proof.
  intros N. destruct r as [|z r]; [reflexivity|]. destruct z as [|p|p]; try reflexivity.
  do 6 (destruct p as [p|p|]; try reflexivity). exfalso. now apply (N r).
Qed.
Lemma number_app l r : number (l ++ r) = number l * 10 ^ zlen r + number r.
Proof. rewrite !number_dec. apply dec_value_app. Qed.
Lemma tail_value neg ds fs b xs : Forall digit ds -> Forall digit fs -> Forall digit xs ->
  exists N D, (if b : bool then lowest neg (number ds * 10 ^ zlen fs + number fs) (10 ^ zlen fs * 10 ^ number xs)
               else lowest neg ((number ds * 10 ^ zlen fs + number fs) * 10 ^ number xs) (10 ^ zlen fs)) = Ok (N, D) /\
    let k := if b then - number xs else number xs in
    let n := number (ds ++ fs) * up 10 k in
    lowest_of (if neg then - n else n) (10 ^ zlen fs * up 10 (- k)) N D.
Proof.
  intros D1 D2 D3. pose proof (number_nonneg xs D3) as X. destruct (up_neg (number xs) X) as [U1 U2]. pose proof (zlen_nonneg fs).
  assert (0 < 10 ^ zlen fs) by (apply Z.pow_pos_nonneg; lia). assert (0 < 10 ^ number xs) by (apply Z.pow_pos_nonneg; lia).
  cbn zeta. rewrite number_app. destruct b.
  - rewrite Z.opp_involutive, U1, U2, Z.mul_1_r. apply lowest_spec. nia.
  - rewrite U1, U2, Z.mul_1_r. apply lowest_spec. lia.
Qed.
Lemma form_starts t n d : fraction_form t n d ->
  starts_digit t || match t with c :: r' => (c =? 46) && starts_digit r' | [] => false end = true /\ unsigned t.
Proof.
  intros [t' u ds es R _|t' x ds k R _|t' f x ds fs k M N NE _].
  - pose proof (proj1 (run_starts t' ds ([47] ++ u) R)) as S. rewrite S. split; [reflexivity|now apply starts_unsigned].
  - pose proof (proj1 (run_starts t' ds x R)) as S. rewrite S. split; [reflexivity|now apply starts_unsigned].
  - destruct M as [[-> ->]|R].
    + destruct N as [[-> ->]|R]; [now destruct NE|]. pose proof (proj1 (run_starts f fs x R)) as S. cbn [app]. rewrite S. split; [reflexivity|cbn; lia].
    + pose proof (proj1 (run_starts t' ds ([46] ++ f ++ x) R)) as S. rewrite S. split; [reflexivity|now apply starts_unsigned].
Qed.
Lemma maybe_grouped u ds t : maybe_run u ds -> stops t -> grouped false (u ++ t) = (ds, t).
Proof. intros [[-> ->]|R] S; [now apply grouped_stop|now apply grouped_run]. Qed.
Lemma maybe_facts u ds : maybe_run u ds -> Forall digit ds /\ zlen ds <= zlen u.
Proof. intros [[-> ->]|R]; [split; [constructor|lia]|]. destruct (run_starts u ds [] R) as (_ & _ & F & L). now split. Qed.
Lemma unsigned_ok neg t n d : fraction_form t n d -> zlen t <= 4300 ->
  (d = 0 /\ unsigned_fraction neg t = Err ZeroDivisionError) \/
  (0 < d /\ exists N D, unsigned_fraction neg t = Ok (N, D) /\ lowest_of (if neg then - n else n) d N D).
Proof.
  intros F L. unfold unsigned_fraction. rewrite (proj1 (form_starts t n d F)). destruct F as [t' u ds es R1 R2|t' x ds k R X|t' f x ds fs k M N NE X].
  - rewrite (grouped_run t' ds ([47] ++ u) R1) by (cbn; split; [reflexivity|lia]). cbn [app]. pose proof (grouped_run u es [] R2 I false) as G. rewrite app_nil_r in G. rewrite G.
    destruct (run_starts t' ds [] R1) as (_ & _ & F1 & L1). destruct (run_starts u es [] R2) as (_ & NE & F2 & L2).
    rewrite !zlen_app in L. pose proof (zlen_nonneg t'). pose proof (zlen_nonneg u). change (zlen [47]) with 1 in L.
    destruct es as [|e es]; [contradiction|]. set (E := e :: es) in *. rewrite (int_of_number ds), (int_of_number E) by lia. cbn [rbind].
    pose proof (number_nonneg E F2). destruct (Z.eq_dec (number E) 0) as [Z0|Z0].
    + left. split; [exact Z0|]. unfold lowest. rewrite Z0. reflexivity.
    + right. split; [lia|]. apply lowest_spec. lia.
  - destruct (exponent_of_form x k X) as (b & xs & E & LX & FX & -> & S & N47 & N46). rewrite (grouped_run t' ds x R S). rewrite dotless_case by assumption.
    rewrite pointless_case by assumption. rewrite E. destruct (run_starts t' ds [] R) as (_ & _ & F1 & L1).
    rewrite zlen_app in L. pose proof (zlen_nonneg t'). pose proof (zlen_nonneg x). change (int_of []) with (Ok (number [])). rewrite (int_of_number ds), (int_of_number xs) by lia. cbn [rbind].
    right. split; [apply Z.pow_pos_nonneg; lia|]. destruct (tail_value neg ds [] b xs F1 (Forall_nil _) FX) as (N & D & Q & W). exists N, D. split; [exact Q|].
    cbn zeta in W. rewrite app_nil_r in W. change (10 ^ zlen []) with 1 in W. rewrite Z.mul_1_l in W. exact W.
  - destruct (exponent_of_form x k X) as (b & xs & E & LX & FX & -> & S & N47 & N46). rewrite (maybe_grouped t' ds ([46] ++ f ++ x) M) by (cbn; split; [reflexivity|lia]). cbn [app].
    rewrite (maybe_grouped f fs x N S). rewrite E. destruct (maybe_facts t' ds M) as [F1 L1]. destruct (maybe_facts f fs N) as [F2 L2].
    rewrite !zlen_app in L. pose proof (zlen_nonneg t'). pose proof (zlen_nonneg x). pose proof (zlen_nonneg f). change (zlen [46]) with 1 in L. rewrite (int_of_number ds), (int_of_number fs), (int_of_number xs) by lia. cbn [rbind].
    right. split; [apply Z.mul_pos_pos; apply Z.pow_pos_nonneg; pose proof (zlen_nonneg fs); lia|]. apply (tail_value neg ds fs b xs F1 F2 FX).
Qed.
(** Whatever is not refused has one of the forms. *)
Lemma unsigned_inv neg r : unsigned_fraction neg r = Err ValueError \/ exists n d, fraction_form r n d.
Proof.
  unfold unsigned_fraction. destruct (starts_digit r || _) eqn:S; [|now left].
  destruct (grouped false r) as [ds t] eqn:G.
  assert (M : exists u, maybe_run u ds /\ r = u ++ t /\ (ds <> [] -> digit_run u ds)).
  { destruct (grouped_inv r false _ _ G) as [[-> ->]|[(u & R & ->)|(Q & _)]]; [|now exists u; repeat split; auto; right|discriminate Q].
    exists []. repeat split; [now left|contradiction]. }
  destruct M as (u & M & -> & DR).
  assert (C : (exists r', t = 47 :: r') \/ (forall r', t <> 47 :: r')) by (destruct t as [|c t]; [right; discriminate|]; destruct (Z.eq_dec c 47) as [->|]; [left; eauto|right; congruence]).
  destruct C as [(r' & ->)|C].
  - destruct (grouped false r') as [es q] eqn:G2. destruct es as [|e es]; [now left|]. destruct q; [|now left].
    destruct (grouped_inv r' false _ _ G2) as [[Q _]|[(v & R2 & ->)|(Q & _)]]; try discriminate Q. rewrite app_nil_r in *.
    destruct ds as [|d0 ds].
    + destruct M as [[-> _]|R]; [|inversion R]. discriminate S.
    + right. exists (number (d0 :: ds)), (number (e :: es)). apply (form_ratio u v); [now apply DR|exact R2].
  - rewrite dotless_case by exact C.
    assert (P : (exists r', t = 46 :: r') \/ (forall r', t <> 46 :: r')) by (destruct t as [|c t]; [right; discriminate|]; destruct (Z.eq_dec c 46) as [->|]; [left; eauto|right; congruence]).
    destruct P as [(r' & ->)|P].
    + destruct (grouped false r') as [fs x] eqn:G2. destruct (exponent_of x) as [[b xs]|] eqn:E; [|now left]. apply exponent_of_inv in E. right.
      assert (N : exists f, maybe_run f fs /\ r' = f ++ x).
      { destruct (grouped_inv r' false _ _ G2) as [[-> ->]|[(f & R & ->)|(Q & _)]]; [|now exists f; split; auto; right|discriminate Q]. exists []. split; [now left|reflexivity]. }
      destruct N as (f & N & ->). eexists. eexists. apply (form_point u f x ds fs); [exact M|exact N| |exact E].
      destruct ds as [|d0 ds]; [|left; discriminate]. right. intros ->.
      destruct M as [[-> _]|R]; [|inversion R]. destruct N as [[-> _]|R]; [|inversion R]. cbn [app] in *.
      destruct x as [|c x]; [discriminate S|]. cbn [starts_digit app] in S. change (ascii_digit 46) with false in S. change (46 =? 46) with true in S. cbn in S.
      cbn [grouped] in G2. unfold ascii_digit in *. rewrite S in G2. destruct (grouped true x). discriminate G2.
    + rewrite pointless_case by exact P. destruct (exponent_of t) as [[b xs]|] eqn:E; [|now left]. apply exponent_of_inv in E. right.
      destruct ds as [|d0 ds].
      * exfalso. destruct M as [[-> _]|R]; [|inversion R]. cbn [app] in *. inversion E as [Z0|c sign t' es K I R Z0 Z1]; subst; [discriminate S|].
        destruct K as [->| ->]; discriminate S.
      * eexists. eexists. apply (form_whole u t (d0 :: ds)); [now apply DR|exact E].
Qed.
