(** Text of complex numbers with exact parts (C108). *)
From Verif Require Import L_Base M_Data M_Numeric M_Class M_Var M_Real M_Complex M_List M_Text M_CText S_Data L_Data S_Var L_Var S_Real L_Real L_Frac L_Radical P_Real S_Complex L_Complex P_Complex L_Kinds P_Kinds L_Pi P_Text P_Var S_List L_List P_List P_ListText S_CText.

(** * The pieces of a text *)
Definition core (s : str) : str := without (spaces ++ s2l "*") s.
Definition pm (n : bool) : str := if n then s2l "-" else s2l "+".
Definition unitless (s : str) : str := let q := str_replace [105] [] s in match q with [] => s2l "1" | _ => q end.
Lemma core_app a b : core (a ++ b) = core a ++ core b.
Proof. apply filter_app. Qed.
Lemma core_squash s : core s = str_replace [42] [] (squash s).
Proof.
  rewrite replace_del, <- unspaced_squash. unfold core, unspaced, without. change (s2l "*") with [42]. induction s as [|c s IH]; [reflexivity|].
  cbn [filter]. rewrite existsb_app. destruct (existsb (Z.eqb c) spaces); cbn [negb orb]; [exact IH|].
  cbn [filter]. destruct (existsb (Z.eqb c) [42]); cbn [negb]; [exact IH|now rewrite IH].
Qed.
Lemma norm_core s : ~ In 91 s -> ~ In 106 s -> complex_norm s = str_replace [45] (s2l "+-") (core s).
Proof.
  intros N1 N2. unfold complex_norm, replacer. cbn [fold_left fst snd]. change (s2l "*") with [42]. rewrite <- core_squash.
  change (s2l "-") with [45]. set (u := str_replace [45] (s2l "+-") (core s)).
  assert (IN : forall c, ~ In c s -> c <> 43 -> c <> 45 -> ~ In c u).
  { intros c N X Y I. apply replace_back in I as [I|I]; [|cbn in I; lia]. apply N. unfold core, without in I. now apply filter_In in I. }
  change (s2l "[i]") with (91 :: s2l "i]"). rewrite str_replace_none by (apply IN; auto; lia).
  change (s2l "j") with [106]. rewrite str_replace_none by (apply IN; auto; lia). reflexivity.
Qed.
Definition flat (s : str) : Prop := s <> [] /\ ~ In 43 s /\ ~ In 45 s.
Lemma flat_expand s : flat s -> str_replace [45] (s2l "+-") s = s.
Proof. intros (_ & _ & N). now apply str_replace_none. Qed.
Lemma flat_last s : flat s -> exists p c, s = p ++ [c] /\ c <> 43.
Proof.
  intros (N & P & _). destruct (exists_last N) as (p & c & ->). exists p, c. split; [reflexivity|]. intros ->. apply P. apply in_or_app. right. now left.
Qed.
Lemma flat_first s : flat s -> exists c r, s = c :: r /\ c <> 43.
Proof. intros (N & P & _). destruct s as [|c r]; [contradiction|]. exists c, r. split; [reflexivity|]. intros ->. apply P. now left. Qed.
Lemma strip_expanded (n : bool) A X : flat A -> (exists p c, A ++ X = p ++ [c] /\ c <> 43) ->
  strip (s2l "+") ((if n then s2l "+-" else []) ++ A ++ X) = sg n ++ A ++ X.
Proof.
  intros FA (p & c & E & NC). unfold strip. assert (LS : lstrip (s2l "+") ((if n then s2l "+-" else []) ++ A ++ X) = sg n ++ A ++ X).
  { destruct n; [reflexivity|]. cbn [app sg]. destruct (flat_first A FA) as (x & r & -> & NX). apply lstrip_id.
    intros y q Q. injection Q as <- _. intros [I|[]]. now apply NX. }
  rewrite LS, E, app_assoc. apply rstrip_snoc_id. intros [I|[]]. now apply NC.
Qed.
Lemma expand_sign n : str_replace [45] (s2l "+-") (sg n) = if n then s2l "+-" else [].
Proof. now destruct n. Qed.
Lemma sg_no43 n A : ~ In 43 A -> ~ In 43 (sg n ++ A).
Proof. intros N I. apply in_app_or in I as [I|I]; [destruct n; cbn in I; lia|now apply N]. Qed.
Lemma parts_two s na A nb B : ~ In 91 s -> ~ In 106 s -> core s = sg na ++ A ++ pm nb ++ B -> flat A -> flat B ->
  complex_parts s = Ok (sg na ++ A, unitless (sg nb ++ B)).
Proof.
  intros N1 N2 E FA FB. unfold complex_parts. rewrite (norm_core s N1 N2), E, !replace1_app, expand_sign, (flat_expand A FA), (flat_expand B FB).
  replace (str_replace [45] (s2l "+-") (pm nb)) with (43 :: sg nb) by (now destruct nb).
  rewrite strip_expanded; [|exact FA|].
  2:{ destruct (flat_last B FB) as (p & c & -> & NC). exists (A ++ (43 :: sg nb) ++ p), c. split; [now rewrite <- !app_assoc|exact NC]. }
  change (sg na ++ A ++ (43 :: sg nb) ++ B) with (sg na ++ A ++ 43 :: (sg nb ++ B)). rewrite app_assoc.
  rewrite split_on_app by (apply sg_no43; apply FA). rewrite split_on_none by (apply sg_no43; apply FB).
  destruct (flat_first A FA) as (x & r & EA & _). unfold pick_parts.
  destruct (sg na ++ A) as [|p0 p] eqn:Q; [exfalso; apply app_eq_nil in Q as [_ Q]; rewrite EA in Q; discriminate Q|]. reflexivity.
Qed.
Lemma parts_one s n A : ~ In 91 s -> ~ In 106 s -> core s = sg n ++ A -> flat A ->
  complex_parts s = if memb 105 A then Ok (s2l "0", unitless (sg n ++ A)) else Ok (sg n ++ A, s2l "0").
Proof.
  intros N1 N2 E FA. unfold complex_parts. rewrite (norm_core s N1 N2), E, !replace1_app, expand_sign, (flat_expand A FA).
  rewrite <- (app_nil_r A) at 1. rewrite strip_expanded; [|exact FA|rewrite app_nil_r; destruct (flat_last A FA) as (p & c & -> & NC); eauto].
  rewrite app_nil_r. rewrite split_on_none by (apply sg_no43; apply FA).
  assert (M : memb 105 (sg n ++ A) = memb 105 A) by (now destruct n).
  destruct (flat_first A FA) as (x & r & EA & _). unfold pick_parts.
  destruct (sg n ++ A) as [|p0 p] eqn:Q; [exfalso; apply app_eq_nil in Q as [_ Q]; rewrite EA in Q; discriminate Q|]. rewrite M.
  destruct (memb 105 A); reflexivity.
Qed.
Lemma parts_three s na A nb B nc C : ~ In 91 s -> ~ In 106 s -> core s = sg na ++ A ++ pm nb ++ B ++ pm nc ++ C -> flat A -> flat B -> flat C ->
  complex_parts s = Ok (sg na ++ A, unitless (sg nb ++ B)).
Proof.
  intros N1 N2 E FA FB FC. unfold complex_parts. rewrite (norm_core s N1 N2), E, !replace1_app, expand_sign, (flat_expand A FA), (flat_expand B FB), (flat_expand C FC).
  replace (str_replace [45] (s2l "+-") (pm nb)) with (43 :: sg nb) by (now destruct nb).
  replace (str_replace [45] (s2l "+-") (pm nc)) with (43 :: sg nc) by (now destruct nc).
  rewrite strip_expanded; [|exact FA|].
  2:{ destruct (flat_last C FC) as (p & c & -> & NC). exists (A ++ (43 :: sg nb) ++ B ++ (43 :: sg nc) ++ p), c. split; [now rewrite <- !app_assoc|exact NC]. }
  change (sg na ++ A ++ (43 :: sg nb) ++ B ++ (43 :: sg nc) ++ C) with (sg na ++ A ++ 43 :: (sg nb ++ B ++ 43 :: (sg nc ++ C))). rewrite app_assoc.
  rewrite split_on_app by (apply sg_no43; apply FA). rewrite app_assoc.  rewrite split_on_app by (apply sg_no43; apply FB). rewrite split_on_none by (apply sg_no43; apply FC).
  destruct (flat_first A FA) as (x & r & EA & _). unfold pick_parts.
  destruct (sg na ++ A) as [|p0 p] eqn:Q; [exfalso; apply app_eq_nil in Q as [_ Q]; rewrite EA in Q; discriminate Q|]. reflexivity.
Qed.

(** * The text of given parts *)
Lemma replacer_two na A nb M : ~ In 43 A -> ~ In 32 A -> M <> [] -> ~ In 43 M -> ~ In 45 M -> str_replace [32; 49; 105] (s2l " i") M = M ->
  replacer ((sg na ++ A) ++ s2l " + " ++ (sg nb ++ M)) [(s2l "+ -", s2l "- "); (s2l " 1i", s2l " i")] =
  (sg na ++ A) ++ s2l " " ++ pm nb ++ s2l " " ++ (if starts_with (s2l "1i") M then skipn 1 M else M).
Proof.
  intros A1 A2 NM M1 M2 M3. unfold replacer. cbn [fold_left fst snd].
  assert (N1 : forall c, In c (s2l "+ ") -> ~ In c (sg na ++ A)).
  { intros c I. apply in_app3; [destruct na, I as [<-|[<-|[]]]; cbn; lia|]. destruct I as [<-|[<-|[]]]; auto. }
  assert (E1 : str_replace (s2l "+ -") (s2l "- ") ((sg na ++ A) ++ s2l " + " ++ (sg nb ++ M)) =
    (sg na ++ A) ++ s2l " " ++ pm nb ++ s2l " " ++ M).
  { change (s2l "+ -") with ([43; 32; 45] : list Z). rewrite str_replace_app by (apply N1; now left). f_equal.
    change (s2l " + ") with ([32] ++ [43; 32] : list Z). rewrite <- app_assoc, str_replace_app by (cbn; lia).
    assert (BN : str_replace [43; 32; 45] (s2l "- ") M = M) by (now apply str_replace_none).
    destruct nb.
    - change (([43; 32] : list Z) ++ (sg true ++ M)) with (([43; 32; 45] : list Z) ++ M). rewrite str_replace_hit, BN. reflexivity.
    - cbn [sg app]. destruct M as [|c r]; [contradiction|].
      rewrite str_replace_miss. 2:{ cbn [starts_with]. replace (45 =? c) with false; [now rewrite !andb_false_r|]. symmetry. apply Z.eqb_neq. intros <-. apply M2. now left. }
      rewrite str_replace_miss by reflexivity. now rewrite BN. }
  rewrite E1. change (s2l " 1i") with ([32; 49; 105] : list Z). rewrite str_replace_app by (apply N1; right; now left). f_equal.
  change (s2l " " ++ pm nb ++ s2l " " ++ M) with ([32] ++ pm nb ++ 32 :: M).
  assert (H : forall c, c = 43 \/ c = 45 -> str_replace [32; 49; 105] (s2l " i") (32 :: c :: 32 :: M) =
    32 :: c :: 32 :: (if starts_with (s2l "1i") M then skipn 1 M else M)).
  { intros c Hc. rewrite str_replace_miss by (destruct Hc as [->| ->]; reflexivity).
    rewrite str_replace_miss by (destruct Hc as [->| ->]; reflexivity). f_equal. f_equal.
    destruct (starts_with (s2l "1i") M) eqn:L.
    - change (s2l "1i") with [49; 105] in L. destruct M as [|x [|y M]]; [discriminate L| |]; cbn [starts_with] in L.
      + rewrite andb_false_r in L. discriminate L.
      + apply andb_prop in L as [L1 L2]. apply andb_prop in L2 as [L2 _]. assert (x = 49) as -> by lia. assert (y = 105) as -> by lia.
        change (32 :: 49 :: 105 :: M) with ([32; 49; 105] ++ M). rewrite str_replace_hit. cbn [skipn]. change (s2l " i" ++ str_replace [32; 49; 105] (s2l " i") M) with (32 :: 105 :: str_replace [32; 49; 105] (s2l " i") M).
        do 2 f_equal. rewrite str_replace_miss in M3 by reflexivity. rewrite str_replace_miss in M3 by reflexivity. now injection M3.
    - rewrite str_replace_miss; [now rewrite M3|]. exact L. }
  destruct nb; [exact (H 45 ltac:(auto))|exact (H 43 ltac:(auto))].
Qed.

Definition is_barred (c : cls) : bool := match c with KRealFraction | KRealPiFraction => true | _ => false end.
Definition is_radical (c : cls) : bool := match c with KRealRadical => true | _ => false end.
Lemma imag_kinds c t : make_imag c t = if is_barred c then str_replace [47] [105; 47] t else if is_radical c then t ++ s2l " * i" else t ++ s2l "i".
Proof. now destruct c. Qed.
Lemma imag_sign c n B : make_imag c (sg n ++ B) = sg n ++ make_imag c B.
Proof.
  rewrite !imag_kinds. destruct (is_barred c); [|destruct (is_radical c); now rewrite app_assoc]. rewrite replace1_app. now destruct n.
Qed.
Lemma core_id s : (forall c, In c s -> ~ In c spaces /\ c <> 42) -> core s = s.
Proof.
  intros H. unfold core, without. induction s as [|c s IH]; [reflexivity|]. cbn [filter].
  replace (existsb (Z.eqb c) (spaces ++ s2l "*")) with false.
  - cbn [negb]. f_equal. apply IH. intros x X. apply H. now right.
  - symmetry. apply Bool.not_true_is_false. intros E. apply existsb_exists in E as (x & I & Q). apply Z.eqb_eq in Q. subst x.
    destruct (H c (or_introl eq_refl)) as [H1 H2]. apply in_app_or in I as [I|I]; [now apply H1|]. cbn in I. lia.
Qed.
Lemma plain_core A : plain A -> core A = A.
Proof. intros P. apply core_id. intros c I. split; [apply P; exact I|]. intros ->. apply (plain_not 42 _ P); [inset|exact I]. Qed.
Lemma plain_flat A : plain A -> flat A.
Proof. intros P. split; [apply P|]. split; apply (plain_not _ _ P); inset. Qed.
Lemma bar_units B : ~ In 105 B -> str_replace [105] [] (str_replace [47] [105; 47] B) = B.
Proof.
  induction B as [|c B IH]; intros N; [reflexivity|]. change (c :: B) with ([c] ++ B). rewrite !replace1_app, IH by (intros I; apply N; now right). f_equal.
  destruct (Z.eqb_spec c 47) as [->|X]; [reflexivity|]. rewrite (str_replace_none 47) by (intros [E|[]]; lia).
  apply str_replace_none. intros [E|[]]. apply N. now left.
Qed.
Lemma bar_memb B : ~ In 105 B -> memb 105 (str_replace [47] [105; 47] B) = memb 47 B.
Proof.
  intros N. destruct (memb 47 B) eqn:E.
  - apply memb_spec in E. apply Coq.Lists.List.in_split in E as (p & r & ->). apply memb_spec. rewrite replace1_app. apply in_or_app. right.
    change (47 :: r) with ([47] ++ r). rewrite str_replace_hit. now left.
  - apply memb_false in E. rewrite str_replace_none by exact E. now apply memb_false.
Qed.
(** What the marked text of the imaginary part looks like. *)
Lemma imag_shape c B : plain B -> let M := make_imag c B in
  M <> [] /\ ~ In 43 M /\ ~ In 45 M /\ ~ In 91 M /\ ~ In 106 M /\ str_replace [32; 49; 105] (s2l " i") M = M /\
  flat (core M) /\ str_replace [105] [] (core M) = B /\ memb 105 (core M) = (if is_barred c then memb 47 B else true).
Proof.
  intros P M. subst M. rewrite imag_kinds.
  assert (NB : forall x, In x (s2l "+-*[ij" ++ spaces) -> ~ In x B) by (intros x; apply plain_not; exact P).
  assert (N105 : ~ In 105 B) by (apply NB; inset). assert (NE : B <> []) by apply P.
  destruct (is_barred c).
  - set (M := str_replace [47] [105; 47] B).
    assert (IN : forall x, x <> 105 -> In x (s2l "+-*[ij" ++ spaces) -> ~ In x M).
    { intros x X I J. apply replace_back in J as [J|J]; [now apply (NB x)|]. cbn in J. destruct J as [J|[J|[]]]; [lia|]. subst x. cbn in I. lia. }
    assert (CM : core M = M).
    { apply core_id. intros x I. split.
      - intros J. assert (x <> 105) by (intros ->; cbn in J; lia). apply (IN x); auto. apply in_or_app. now right.
      - intros ->. apply (IN 42); auto; [lia|inset]. }
    assert (NM : M <> []).
    { intros E. apply (f_equal (str_replace [105] [])) in E. unfold M in E. rewrite bar_units in E by exact N105. cbn in E. contradiction. }
    rewrite CM. repeat apply conj; auto; try (apply IN; [lia|inset]).
    + apply str_replace_none. apply IN; [lia|inset].
    + apply bar_units. exact N105.
    + now apply bar_memb.
  - assert (UT : forall u, u = s2l " * i" \/ u = s2l "i" -> core (B ++ u) = B ++ [105]).
    { intros u U. rewrite core_app, (plain_core B P). f_equal. destruct U as [->| ->]; reflexivity. }
    assert (G : forall u, u = s2l " * i" \/ u = s2l "i" -> let M := B ++ u in M <> [] /\ ~ In 43 M /\ ~ In 45 M /\ ~ In 91 M /\ ~ In 106 M /\
      str_replace [32; 49; 105] (s2l " i") M = M /\ flat (core M) /\ str_replace [105] [] (core M) = B /\ memb 105 (core M) = true); [|destruct (is_radical c); apply G; auto].
    intros u HU M. subst M. rewrite (UT u HU).
    assert (IN : forall x, In x (s2l "+-[j") -> ~ In x (B ++ u)).
    { intros x I. apply in_app3; [apply NB; cbn in I |- *; lia|]. destruct HU as [->| ->]; cbn in I |- *; lia. }
    repeat apply conj; try (apply IN; inset).
    + intros E. now apply app_eq_nil in E as [E _].
    + rewrite str_replace_app by (apply NB; inset). f_equal. destruct HU as [->| ->]; reflexivity.
    + intros E. now apply app_eq_nil in E as [E _].
    + apply in_app3; [apply NB; inset|cbn; lia].
    + apply in_app3; [apply NB; inset|cbn; lia].
    + rewrite replace1_app, str_replace_none by exact N105. apply app_nil_r.
    + apply memb_spec. apply in_or_app. right. now left.
Qed.
(** The unit 1 that the text drops. *)
Lemma imag_drop c B : plain B -> let M := make_imag c B in
  starts_with (s2l "1i") M = (if is_barred c then starts_with (s2l "1/") B else negb (is_radical c) && leqb B (s2l "1")).
Proof.
  intros P M. subst M. rewrite imag_kinds. change (s2l "1i") with [49; 105]. change (s2l "1/") with [49; 47]. change (s2l "1") with [49].
  assert (N105 : ~ In 105 B) by (apply plain_not; [exact P|inset]). destruct P as [NE P]. destruct B as [|x B]; [contradiction|].
  assert (X : x <> 105) by (intros ->; apply N105; now left).
  destruct (is_barred c).
  - change (x :: B) with ([x] ++ B). rewrite replace1_app. destruct (Z.eqb_spec x 47) as [->|Y]; [reflexivity|].
    rewrite (str_replace_none 47) with (s := [x]) by (intros [E|[]]; lia). cbn [app starts_with]. f_equal.
    destruct B as [|y B]; [reflexivity|]. change (y :: B) with ([y] ++ B). rewrite replace1_app. destruct (Z.eqb_spec y 47) as [->|Y2]; [reflexivity|].
    rewrite (str_replace_none 47) with (s := [y]) by (intros [E|[]]; lia). cbn [app starts_with].
    replace (105 =? y) with false by (symmetry; apply Z.eqb_neq; intros <-; apply N105; right; now left). replace (47 =? y) with false by lia. reflexivity.
  - destruct B as [|y B].
    + destruct (is_radical c); cbn [app starts_with leqb negb andb]; [apply andb_false_r|]. change (s2l "i") with [105]. cbn [starts_with]. rewrite Z.eqb_sym. now destruct (x =? 49).
    + replace (leqb (x :: y :: B) [49]) with false by (cbn [leqb]; symmetry; apply andb_false_r). rewrite andb_false_r.
      assert (Q : forall u, starts_with [49; 105] ((x :: y :: B) ++ u) = false).
      { intros u. cbn [app starts_with]. replace (105 =? y) with false; [now rewrite andb_false_r|]. symmetry. apply Z.eqb_neq. intros <-. apply N105. right. now left. }
      destruct (is_radical c); apply Q.
Qed.

Lemma sg_plain n A x : plain A -> In x (s2l "[j") -> ~ In x (sg n ++ A).
Proof.
  intros P I. apply in_app3; [destruct n; cbn in I |- *; lia|]. apply plain_not; [exact P|]. cbn in I |- *. lia.
Qed.
Lemma unit_sign n M B : str_replace [105] [] M = B -> B <> [] -> unitless (sg n ++ M) = sg n ++ B.
Proof.
  intros E N. unfold unitless. rewrite replace1_app, E. replace (str_replace [105] [] (sg n)) with (sg n) by (now destruct n).
  cbv zeta. destruct (sg n ++ B) eqn:Q; [|reflexivity]. now apply app_eq_nil in Q as [_ Q].
Qed.
(** The pieces found in the text of given parts. *)
Lemma show_pieces c na A nb B : plain A -> plain B -> let a := sg na ++ A in let b := sg nb ++ B in
  complex_parts (complex_show a c b) =
  if leqb b (s2l "0") then Ok (a, s2l "0")
  else if leqb a (s2l "0") then if is_barred c && negb (memb 47 B) then Ok (b, s2l "0") else Ok (s2l "0", b)
  else Ok (a, if is_barred c then if starts_with (s2l "1/") B then sg nb ++ skipn 1 B else b
              else if negb (is_radical c) && leqb B (s2l "1") then if nb then s2l "-" else s2l "1" else b).
Proof.
  intros PA PB a b. unfold complex_show. destruct (imag_shape c B PB) as (M0 & M1 & M2 & M3 & M4 & M5 & M6 & M7 & M8).
  pose proof (imag_drop c B PB) as MD. cbv zeta in MD. unfold b. rewrite imag_sign. set (M := make_imag c B) in *.
  assert (NE : B <> []) by apply PB.
  destruct (leqb (sg nb ++ B) (s2l "0")).
  { rewrite (parts_one a na A); [|now apply sg_plain; [|inset]|now apply sg_plain; [|inset]| |now apply plain_flat].
    - replace (memb 105 A) with false; [reflexivity|]. symmetry. apply memb_false. apply plain_not; [exact PA|inset].
    - unfold a. rewrite core_app, (plain_core A PA). now destruct na. }
  destruct (leqb a (s2l "0")).
  { rewrite (parts_one (sg nb ++ M) nb (core M)); [| | | |exact M6].
    - rewrite M8, (unit_sign nb (core M) B M7 NE). destruct (is_barred c); [|reflexivity].
      destruct (memb 47 B) eqn:E; [reflexivity|]. cbn [andb negb]. do 3 f_equal. rewrite <- M7. symmetry. apply str_replace_none. now apply memb_false.
    - apply in_app3; [destruct nb; cbn; lia|exact M3].
    - apply in_app3; [destruct nb; cbn; lia|exact M4].
    - rewrite core_app. f_equal. now destruct nb. }
  unfold a. rewrite replacer_two; auto; try (apply plain_not; [exact PA|inset]). rewrite MD.
  set (M' := if (if is_barred c then starts_with (s2l "1/") B else negb (is_radical c) && leqb B (s2l "1")) then skipn 1 M else M).
  assert (SUB : forall x, ~ In x M -> ~ In x M').
  { intros x N I. apply N. unfold M' in I. match type of I with In _ (if ?t then _ else _) => destruct t end; [|exact I]. destruct M; [destruct I|now right]. }
  assert (HM : flat (core M') /\ str_replace [105] [] (core M') = if is_barred c then if starts_with (s2l "1/") B then skipn 1 B else B
              else if negb (is_radical c) && leqb B (s2l "1") then [] else B).
  { unfold M'. destruct (is_barred c) eqn:BC.
    - destruct (starts_with (s2l "1/") B) eqn:S1; [|now split].
      unfold M in *. rewrite imag_kinds, BC in *. change (s2l "1/") with [49; 47] in S1. destruct B as [|x [|y r]]; [discriminate S1|cbn in S1; rewrite andb_false_r in S1; discriminate S1|].
      cbn [starts_with] in S1. apply andb_prop in S1 as [S1 S2]. apply andb_prop in S2 as [S2 _]. assert (x = 49) as -> by lia. assert (y = 47) as -> by lia.
      change (49 :: 47 :: r) with ([49] ++ 47 :: r) in *. rewrite replace1_app in *. change (str_replace [47] [105; 47] [49]) with [49] in *. cbn [app skipn] in *.
      change (core (49 :: ?t)) with (49 :: core t) in M6, M7. destruct M6 as (_ & K1 & K2). split.
      + split; [|split; intros I; [apply K1|apply K2]; now right]. change (47 :: r) with ([47] ++ r). rewrite str_replace_hit. change (core (105 :: ?t)) with (105 :: core t). discriminate.
      + change (49 :: ?t) with ([49] ++ t) in M7. rewrite replace1_app in M7. change (str_replace [105] [] [49]) with [49] in M7. exact (f_equal (skipn 1) M7).
    - destruct (negb (is_radical c) && leqb B (s2l "1")) eqn:S1; [|now split]. apply andb_prop in S1 as [S1 S2]. apply leqb_spec in S2.
      unfold M in *. rewrite imag_kinds, BC in *. destruct (is_radical c); [discriminate S1|]. rewrite S2 in *. change (flat [105] /\ @nil Z = []). split; [split; [discriminate|split; intros I; cbn in I; lia]|reflexivity]. }
  clearbody M'. destruct HM as [HM1 HM2].
  rewrite (parts_two _ na A nb (core M')); [| | | |now apply plain_flat|exact HM1].
  - f_equal. f_equal. destruct (is_barred c).
    + destruct (starts_with (s2l "1/") B) eqn:S1; apply unit_sign; auto.
      change (s2l "1/") with [49; 47] in S1. destruct B as [|x [|y r]]; [discriminate S1|cbn in S1; rewrite andb_false_r in S1; discriminate S1|]. discriminate.
    + destruct (negb (is_radical c) && leqb B (s2l "1")); [|now apply unit_sign]. unfold unitless. rewrite replace1_app, HM2. now destruct nb.
  - repeat apply in_app3; [destruct na; cbn; lia|apply plain_not; [exact PA|inset]|cbn; lia|destruct nb; cbn; lia|cbn; lia|now apply SUB].
  - repeat apply in_app3; [destruct na; cbn; lia|apply plain_not; [exact PA|inset]|cbn; lia|destruct nb; cbn; lia|cbn; lia|now apply SUB].
  - rewrite !core_app, (plain_core A PA), <- app_assoc. destruct na, nb; reflexivity.
Qed.

Lemma signed_sg s : signed_plain s -> exists n A, plain A /\ s = sg n ++ A.
Proof. intros (A & P & [->| ->]); [exists false, A|exists true, A]; auto. Qed.
Lemma kind_class c t x : In (c, t, x) part_kinds -> (barred c <-> is_barred c = true) /\ (closing c <-> is_barred c = false /\ is_radical c = false).
Proof.
  intros I. cbn in I. unfold barred, closing. repeat (destruct I as [I|I]; [injection I as <- <- <-; cbn; intuition congruence|]). destruct I.
Qed.
Lemma starts_bar B : starts_with (s2l "1/") B = true <-> exists r, B = s2l "1/" ++ r.
Proof.
  split.
  - intros H. change (s2l "1/") with [49; 47] in *. destruct B as [|x [|y r]]; [discriminate H|cbn in H; rewrite andb_false_r in H; discriminate H|].
    cbn [starts_with] in H. exists r. cbn [app]. f_equal; [lia|f_equal; lia].
  - intros (r & ->). apply starts_with_app.
Qed.
Lemma sg_one nb B k r : plain B -> sg nb ++ B = k ++ r -> In k [s2l "1/"; s2l "-1/"] -> B = s2l "1/" ++ r.
Proof.
  intros P E [<-|[<-|[]]]; destruct nb; cbn [sg app] in E; change (s2l "1/") with [49; 47] in *; change (s2l "-1/") with [45; 49; 47] in *; change (s2l "-") with [45] in *; cbn [app] in *.
  - discriminate E.
  - exact E.
  - now injection E.
  - exfalso. apply (plain_not 45 _ P); [inset|]. rewrite E. now left.
Qed.
Lemma leqb_str (a b : str) : leqb a b = true <-> a = b.
Proof. apply leqb_spec. Qed.

(** ** C108: the text of a complex number *)
(** Its parts are found again in the text unless it is one of the misread ones. *)
Theorem C108_pieces_iff : forall a c t x b, signed_plain a -> signed_plain b -> In (c, t, x) part_kinds ->
  (complex_parts (complex_show a c b) = Ok (a, b) <-> ~ misread a c b).
Proof.
  intros a c t x b SA SB K. destruct (kind_class c t x K) as [KB KC]. destruct (signed_sg a SA) as (na & A & PA & ->). destruct (signed_sg b SB) as (nb & B & PB & ->).
  rewrite show_pieces by auto. unfold misread. rewrite KB, KC. destruct (leqb (sg nb ++ B) (s2l "0")) eqn:ZB.
  { apply leqb_str in ZB. rewrite ZB. split; [intros _|reflexivity]. intros [(_ & _ & r & [E|E])|[(_ & _ & E)|(_ & E & _)]]; discriminate E || now apply E. }
  assert (NB : sg nb ++ B <> s2l "0") by (intros E; apply leqb_str in E; congruence).
  destruct (leqb (sg na ++ A) (s2l "0")) eqn:ZA.
  { apply leqb_str in ZA. rewrite ZA. assert (M : memb 47 B = true <-> In 47 (sg nb ++ B)).
    { rewrite memb_spec. split; [intros I; apply in_or_app; now right|]. intros I. apply in_app_or in I as [I|I]; [destruct nb; cbn in I; lia|exact I]. }
    destruct (is_barred c); cbn [andb].
    - destruct (memb 47 B) eqn:E; cbn [negb].
      + split; [intros _|reflexivity]. intros [(Q & _)|[(Q & _)|(_ & _ & _ & Q)]]; [now apply Q|now apply Q|]. apply Q. now apply M.
      + split; [intros Q; exfalso; apply NB; congruence|]. intros Q. exfalso. apply Q. right. right. repeat split; auto.
        intros I. apply M in I. congruence.
    - split; [intros _|reflexivity]. intros [(Q & _)|[(Q & _)|(_ & _ & Q & _)]]; [now apply Q|now apply Q|discriminate Q]. }
  assert (NA : sg na ++ A <> s2l "0") by (intros E; apply leqb_str in E; congruence).
  destruct (is_barred c) eqn:BC.
  - destruct (starts_with (s2l "1/") B) eqn:S.
    + apply starts_bar in S as (r & ->). split.
      * intros Q. injection Q as Q. apply (f_equal (@length Z)) in Q. rewrite !app_length in Q. cbn in Q. lia.
      * intros Q. exfalso. apply Q. left. repeat split; auto. exists r. destruct nb; [right|left]; reflexivity.
    + split; [intros _|reflexivity]. intros [(_ & _ & r & Q)|[(_ & Q & _)|(Q & _)]]; [|now destruct Q|contradiction].
      assert (E : B = s2l "1/" ++ r) by (destruct Q as [Q|Q]; apply (sg_one nb B _ r PB Q); cbn; auto).
      apply Bool.not_true_iff_false in S. apply S. apply starts_bar. eauto.
  - destruct (is_radical c); cbn [negb andb].
    + split; [intros _|reflexivity]. intros [(_ & Q & _)|[(_ & Q & _)|(Q & _)]]; [discriminate Q|now destruct Q|contradiction].
    + destruct (leqb B (s2l "1")) eqn:S.
      * apply leqb_str in S. subst B. destruct nb.
        -- split; [intros Q; discriminate Q|]. intros Q. exfalso. apply Q. right. left. auto.
        -- split; [intros _|reflexivity]. intros [(_ & Q & _)|[(_ & _ & Q)|(Q & _)]]; [discriminate Q|discriminate Q|contradiction].
      * split; [intros _|reflexivity]. intros [(_ & Q & _)|[(_ & _ & Q)|(Q & _)]]; [discriminate Q| |contradiction].
        apply Bool.not_true_iff_false in S. apply S. apply leqb_str. destruct nb; [now injection Q|]. exfalso. cbn [sg app] in Q. subst B.
        apply (plain_not 45 _ PB); [inset|now left].
Qed.
Print Assumptions C108_pieces_iff.

(** * Loading *)
Lemma complex_load_gen fp s e t0 D p q cr tr xr ci ti xi da : complex_parts s = Ok (p, q) ->
  e_type e = [t0] -> is_byte t0 -> e_data e = Buf true D -> length D = 18%nat -> wf_bytes D ->
  In (cr, tr, xr) part_kinds -> In (ci, ti, xi) part_kinds -> nth 0 D 0 mod 64 = tr -> nth 9 D 0 mod 64 = ti ->
  real_new fp cr p = oret (Real cr (Buf true da)) -> length da = 9%nat -> wf_bytes da ->
  (forall db, real_new fp ci q = oret (Real ci (Buf true db)) -> length db = 9%nat -> wf_bytes db ->
   complex_load fp s e = oret (with_cls (with_type (with_data e (Buf true (retag tr da ++ retag ti db))) [ti]) xi)) /\
  (forall w x, real_new fp ci q = (w, Err x) -> complex_load fp s e = (w, Err x)).
Proof.
  intros P ET B0 ED LD WD KR KI T1 T2 LA La Wa.
  destruct (part_kind_sub _ _ _ KR) as (SR & PR & _ & RR). destruct (part_kind_sub _ _ _ KI) as (SI & PI & CI & RI).
  assert (RT : real_type e = Ok cr).
  { unfold real_type, real_subtype. rewrite ED. change 0 with (Z.of_nat 0) at 1.
    rewrite (get_bits_at_nth 0 (Buf true D) (nth 0 D 0)); [|list_n D LD 18%nat; reflexivity]. rewrite T1. exact PR. }
  destruct (retag_same tr da La Wa RR) as [_ Wr].
  set (e1 := with_data e (Buf true (retag tr da ++ skipn 9 D))).
  assert (IT : imag_type e1 = Ok ci).
  { unfold imag_type, imag_subtype_get, e1. cbn [e_data with_data]. change 9 with (Z.of_nat 9) at 1.
    rewrite (get_bits_at_nth 9 _ (nth 9 D 0)); [|list_n D LD 18%nat; list_n da La 9%nat; reflexivity]. rewrite T2. exact PI. }
  assert (ST : complex_load fp s e = do y := real_new fp ci q in do (e, _) := set_imag e1 y in oret e).
  { unfold complex_load. rewrite P. unfold olift at 1. rewrite obind_ret_l. rewrite RT. unfold olift at 1. rewrite obind_ret_l, LA, obind_oret.
    rewrite (set_real_ok e cr tr da D) by auto. unfold oret at 1. cbv iota beta. fold e1. rewrite obind_ret_l, IT. unfold olift at 1. now rewrite obind_ret_l. }
  split.
  - intros db LB Lb Wb. rewrite ST, LB, obind_oret.
    assert (LD1 : length (retag tr da ++ skipn 9 D) = 18%nat) by (rewrite app_length, retag_length, skipn_length; lia).
    rewrite (set_imag_ok e1 t0 ci ti db (retag tr da ++ skipn 9 D)); auto.
    2:{ apply wf_bytes_app. split; [exact Wr|now apply wf_skipn]. }
    rewrite obind_oret. rewrite firstn_app_exact by (now rewrite retag_length). now rewrite CI.
  - intros w x E. rewrite ST, E. reflexivity.
Qed.

Lemma retag_id t d : nth 0 d 0 mod 64 = t -> retag t d = d.
Proof. destruct d as [|c r]; [reflexivity|]. cbn [nth retag]. intros <-. f_equal. lia. Qed.
(** A kind reads a text as certain bytes. *)
Definition own (fp : str -> result (Z * Z)) (c : cls) (t : str) (d : bytes) : Prop :=
  real_new fp c t = oret (Real c (Buf true d)) /\ length d = 9%nat /\ wf_bytes d.
Lemma get_parts e dr di cr tr xr ci ti xi : e_data e = Buf true (dr ++ di) -> length dr = 9%nat -> wf_bytes dr -> length di = 9%nat -> wf_bytes di ->
  In (cr, tr, xr) part_kinds -> In (ci, ti, xi) part_kinds -> nth 0 dr 0 mod 64 = tr -> nth 0 di 0 mod 64 = ti ->
  get_real e = oret (Real cr (Buf true dr)) /\ get_imag e = oret (Real ci (Buf true di)).
Proof.
  intros E L1 W1 L2 W2 K1 K2 T1 T2. rewrite <- (retag_id tr dr T1) in *. rewrite <- (retag_id ti di T2) in *. rewrite retag_length in L1, L2. split.
  - apply (get_real_ok e cr tr xr dr (retag ti di)); auto. rewrite (retag_id tr dr T1) in W1. exact W1.
  - apply (get_imag_ok e ci ti xi di (retag tr dr)); auto; [rewrite (retag_id ti di T2) in W2; exact W2|now rewrite retag_length].
Qed.
(** The text of a number whose parts each survive their own text loads, without a
    warning, as the same parts of the same kinds. *)
Theorem C108_reload : forall fp e t0 dr di cr tr xr ci ti xi a b dr' di',
  e_type e = [t0] -> is_byte t0 -> e_data e = Buf true (dr ++ di) -> length dr = 9%nat -> wf_bytes dr -> length di = 9%nat -> wf_bytes di ->
  In (cr, tr, xr) part_kinds -> In (ci, ti, xi) part_kinds -> nth 0 dr 0 mod 64 = tr -> nth 0 di 0 mod 64 = ti ->
  real_text cr (Buf true dr) = Ok a -> real_text ci (Buf true di) = Ok b -> signed_plain a -> signed_plain b ->
  own fp cr a dr' -> own fp ci b di' -> ~ misread a ci b ->
  exists s e', complex_text e = oret s /\ complex_load fp s e = oret e' /\ e_cls e' = xi /\
    get_real e' = oret (Real cr (Buf true (retag tr dr'))) /\ get_imag e' = oret (Real ci (Buf true (retag ti di'))).
Proof.
  intros fp e t0 dr di cr tr xr ci ti xi a b dr' di' ET B0 ED L1 W1 L2 W2 K1 K2 T1 T2 XA XB SA SB (OA & LA & WA) (OB & LB & WB) NM.
  destruct (get_parts e dr di cr tr xr ci ti xi ED L1 W1 L2 W2 K1 K2 T1 T2) as [GR GI].
  assert (LD : length (dr ++ di) = 18%nat) by (rewrite app_length; lia). assert (WD : wf_bytes (dr ++ di)) by (now apply wf_bytes_app).
  assert (N1 : nth 0 (dr ++ di) 0 mod 64 = tr) by (rewrite app_nth1 by lia; exact T1).
  assert (N2 : nth 9 (dr ++ di) 0 mod 64 = ti) by (rewrite app_nth2 by lia; rewrite L1; exact T2).
  apply (C108_pieces_iff a ci ti xi b SA SB K2) in NM.
  destruct (complex_load_gen fp _ e t0 _ a b cr tr xr ci ti xi dr' NM ET B0 ED LD WD K1 K2 N1 N2 OA LA WA) as [G _].
  exists (complex_show a ci b). eexists. split.
  { unfold complex_text. rewrite GR, obind_oret. cbn [r_cls r_buf]. rewrite XA. unfold olift at 1. rewrite obind_ret_l, GI, obind_oret. cbn [r_cls r_buf]. rewrite XB.
    unfold olift. now rewrite obind_ret_l. }
  split; [apply (G di' OB LB WB)|]. split; [reflexivity|].
  destruct (part_kind_sub _ _ _ K1) as (_ & _ & _ & R1). destruct (part_kind_sub _ _ _ K2) as (_ & _ & _ & R2).
  split; [apply (get_real_ok _ cr tr xr dr' (retag ti di')); auto|apply (get_imag_ok _ ci ti xi di' (retag tr dr')); auto; now rewrite retag_length].
Qed.
Print Assumptions C108_reload.

(** * Parts that survive their own text *)
Lemma own_stored fp c t k n x m : type_id_of c = Some k -> set_bits_at (Some 9) 0 0 6 k (Buf true (zeros 9)) = oret (Buf true (k :: zeros 8)) ->
  is_byte k -> part_load fp c t (Buf true (k :: zeros 8)) = (stored k n x m, oret tt) -> is_byte x -> 0 <= m < 10 ^ 14 -> own fp c t (b_data (stored k n x m)).
Proof.
  intros T S B P X M. destruct (stored_fields k n x m B X M) as [L W]. split; [|now split]. unfold real_new, real_fresh. rewrite T, S, obind_oret, P. reflexivity.
Qed.
Lemma signed_chars s : (exists c r, s = c :: r /\ (forall x, In x (c :: r) -> x <> 45 -> ~ In x (s2l "+-*[ij") /\ ~ In x spaces) /\ ~ In 45 r /\ (c = 45 -> r <> [])) -> signed_plain s.
Proof.
  intros (c & r & -> & H & N & E). destruct (Z.eq_dec c 45) as [->|C].
  - exists r. split; [|now right]. split; [now apply E|]. intros x I. apply H; [now right|]. intros ->. contradiction.
  - exists (c :: r). split; [|now left]. split; [discriminate|]. intros x I. apply H; [exact I|]. intros ->. destruct I as [I|I]; congruence || contradiction.
Qed.
Lemma number_plain c : 47 <= c <= 57 \/ c = ROOT \/ c = 960 -> ~ In c (s2l "+-*[ij") /\ ~ In c spaces.
Proof. unfold ROOT. intros H. split; intros I; cbn in I; lia. Qed.
(** A signed integer followed by digits, bars, roots or pi signs. *)
Lemma signed_int n u : (forall c, In c u -> 47 <= c <= 57 \/ c = ROOT \/ c = 960) -> signed_plain (str_of_int n ++ u).
Proof.
  intros H. rewrite str_of_int_text. exists (text_of (digits (Z.abs n)) ++ u). split.
  - split; [intros E; apply app_eq_nil in E as [E _]; unfold text_of in E; apply map_eq_nil in E; revert E; apply digits_nonempty; lia|].
    intros c I. apply number_plain. apply in_app_or in I as [I|I]; [apply number_chars in I; lia|now apply H].
  - unfold minus_of. destruct (n <? 0); [right|left]; now rewrite <- app_assoc.
Qed.
Lemma fraction_form d n k : real_fraction (Buf true d) = Ok (n, k) -> 1 <= k <= 10000 /\ Z.gcd n k = 1.
Proof. intros RF. unfold real_fraction in RF. destruct (real_decimal (Buf true d)) as [z|]; [|discriminate RF]. injection RF as RF. now apply ratio_form in RF. Qed.
Lemma show_plain n k : 1 <= k -> signed_plain (fraction_show (n, k)).
Proof.
  intros K. unfold fraction_show. cbn [fst snd]. apply signed_int. intros c I. destruct (k =? 1); [destruct I|]. apply in_app_or in I as [I|I]; [cbn in I; lia|].
  rewrite plain_number in I by lia. apply number_chars in I; lia.
Qed.
Theorem C108_decimal_part : forall fp low neg x m d, stored_real low neg x m d -> short x m ->
  exists t, real_text KReal (Buf true d) = Ok t /\ signed_plain t /\ own fp KReal t (b_data (stored 0 neg x m)).
Proof.
  intros fp low neg x m d SR Sh. destruct (decimal_text low neg x m d SR Sh) as (t & T & N & CH & R). destruct (part_text low neg x m d SR) as (n & A & PA & T' & _).
  exists t. split; [exact T|]. split.
  - rewrite T in T'. injection T' as ->. exists A. split; [exact PA|]. destruct n; [now right|now left].
  - destruct SR as (_ & _ & X & M). apply (own_stored fp KReal t 0); [reflexivity|reflexivity|unfold is_byte; lia| |exact X|destruct M as [M|(-> & _)]; lia].
    cbn [part_load]. apply R; [unfold is_byte; lia|reflexivity].
Qed.
Print Assumptions C108_decimal_part.
Lemma own_fraction fp n k : reads_fractions fp -> 1 <= k <= 10000 -> Z.gcd n k = 1 -> Z.abs n < 10 ^ 5 * k ->
  exists d', own fp KRealFraction (fraction_show (n, k)) d' /\ real_fraction (Buf true d') = Ok (n, k).
Proof.
  intros FP K G B. set (slot := 24 :: zeros 8).
  assert (W : wf_bytes slot) by (apply Forall_forall; intros z I; cbn in I; unfold is_byte; lia).
  destruct (C30_fraction_roundtrip n k slot K G B eq_refl W) as (b & L & RB).
  destruct (load_fraction_stored n k 24 0 (zeros 7) b K G B ltac:(unfold is_byte; lia) eq_refl L) as (neg & x & m & -> & X & M).
  exists (b_data (stored 24 neg x m)). split; [|exact RB]. apply (own_stored fp KRealFraction _ 24); auto; [unfold is_byte; lia|].
  cbn [part_load]. unfold fraction_load. rewrite squash_show, FP by lia. exact L.
Qed.
Theorem C108_fraction_part : forall fp d n k, reads_fractions fp -> real_fraction (Buf true d) = Ok (n, k) -> Z.abs n < 10 ^ 5 * k ->
  exists t d', real_text KRealFraction (Buf true d) = Ok t /\ signed_plain t /\ own fp KRealFraction t d' /\ real_fraction (Buf true d') = Ok (n, k).
Proof.
  intros fp d n k FP RF B. destruct (fraction_form d n k RF) as [K G]. destruct (own_fraction fp n k FP K G B) as (d' & O & R).
  exists (fraction_show (n, k)), d'. split; [cbn [real_text]; unfold fraction_string; now rewrite RF|]. split; [apply show_plain; lia|]. now split.
Qed.
Print Assumptions C108_fraction_part.
(** Multiples of pi other than zero. *)
Theorem C108_pi_part : forall fp low neg x m d, stored_real low neg x m d -> short x m -> m <> 0 ->
  exists t, real_text KRealPi (Buf true d) = Ok t /\ signed_plain t /\ own fp KRealPi t (b_data (stored 32 neg x m)).
Proof.
  intros fp low neg x m d SR Sh NZ. destruct (decimal_text low neg x m d SR Sh) as (t & T & N & CH & R). destruct (part_text low neg x m d SR) as (n & A & PA & T' & _).
  assert (MM : 10 ^ 13 <= m < 10 ^ 14) by (destruct SR as (_ & _ & _ & [?|(-> & _)]); lia). destruct SR as (HL & P & X & _).
  assert (T2 : real_pi_string (Buf true d) = Ok (t ++ [960])).
  { destruct (C74_pi_string_roundtrip_iff low neg x m d (zeros 9)) as (s & S1 & S2 & _); auto; [apply Forall_forall; intros z I; cbn in I; unfold is_byte; lia|]. congruence. }
  exists (t ++ [960]). split; [exact T2|]. split.
  - rewrite T in T'. injection T' as ->. exists (A ++ [960]). split.
    + split; [destruct A; discriminate|]. intros c I. apply in_app_or in I as [I|I]; [now apply PA|]. destruct I as [<-|[]]. apply number_plain. lia.
    + destruct n; [right|left]; cbn [sg]; [now rewrite app_assoc|reflexivity].
  - apply (own_stored fp KRealPi _ 32); [reflexivity|reflexivity|unfold is_byte; lia| |exact X|lia].
    cbn [part_load]. rewrite pi_load_end by (intros I; specialize (CH _ I); lia). apply R; [unfold is_byte; lia|reflexivity].
Qed.
Print Assumptions C108_pi_part.
(** Fractional multiples of pi other than whole ones. *)
Theorem C108_pi_fraction_part : forall fp d n k, reads_fractions fp -> pi_fraction (Buf true d) = Ok (n, k) -> Z.abs n < 10 ^ 4 * k -> k <> 1 \/ n = 0 ->
  exists t d', real_text KRealPiFraction (Buf true d) = Ok t /\ signed_plain t /\ own fp KRealPiFraction t d' /\ pi_fraction (Buf true d') = Ok (n, k).
Proof.
  intros fp d n k FP RF B NT. set (slot := 33 :: zeros 8).
  assert (W : wf_bytes slot) by (apply Forall_forall; intros z I; cbn in I; unfold is_byte; lia).
  assert (D : 1 <= k <= 10000 /\ Z.gcd n k = 1) by (unfold pi_fraction in RF; destruct (pi_decimal (Buf true d)) as [z|]; [|discriminate RF]; injection RF as RF; now apply ratio_form in RF).
  destruct D as [D G]. destruct (pi_loads n k slot D G B eq_refl W) as (b & L & RB).
  destruct (load_fraction_stored n k 33 0 (zeros 7) b D G ltac:(lia) ltac:(unfold is_byte; lia) eq_refl L) as (neg & x & m & -> & X & M).
  set (t := if k =? 1 then str_of_int n else str_of_int n ++ [960] ++ s2l "/" ++ str_of_int k).
  assert (TT : pi_fraction_string (Buf true d) = Ok t) by (unfold pi_fraction_string; rewrite RF; cbn [rbind]; now rewrite pi_text).
  exists t, (b_data (stored 33 neg x m)). split; [exact TT|]. split; [|split; [|exact RB]].
  - unfold t. destruct (k =? 1); [rewrite <- (app_nil_r (str_of_int n))|]; apply signed_int; [intros c []|].
    intros c I. apply in_app_or in I as [I|I]; [cbn in I; lia|]. apply in_app_or in I as [I|I]; [cbn in I; lia|]. rewrite plain_number in I by lia. apply number_chars in I; lia.
  - apply (own_stored fp KRealPiFraction _ 33); [reflexivity|reflexivity|unfold is_byte; lia| |exact X|exact M]. cbn [part_load].
    assert (RL : str_replace [960] [] t = fraction_show (n, k)).
    { unfold t, fraction_show. cbn [fst snd]. destruct (k =? 1); [rewrite app_nil_r; apply str_replace_none, no_pi|].
      rewrite !replace1_app. change (str_replace [960] [] [960]) with ([] : str). rewrite !str_replace_none by (try apply no_pi; cbn; lia). reflexivity. }
    unfold pi_fraction_load. rewrite RL.
    assert (C : leqb t (s2l "0") || memb 960 t = true).
    { unfold t. destruct (k =? 1) eqn:K1; [assert (n = 0) as -> by lia; reflexivity|]. apply orb_true_iff. right. apply memb_spec. apply in_or_app. right. now left. }
    rewrite C. unfold fraction_load. rewrite squash_show, FP by lia. exact L.
Qed.
Print Assumptions C108_pi_fraction_part.

(** Radicals of one term. *)
Lemma radical_own fp ls lr rs rr e : in_range ls lr rs rr e -> (lr = rr -> Z.abs (ls + rs) < 1000) ->
  (exists b, radical_load (radical_show ls lr rs rr e) (Buf true (28 :: zeros 8)) = (b, oret tt)) ->
  exists d' ls' lr' rs' rr' e', own fp KRealRadical (radical_show ls lr rs rr e) d' /\ radical_comps (Buf true d') = Ok (ls', lr', rs', rr', e') /\
    P_Text.same_number ls lr rs rr e ls' lr' rs' rr' e' /\ 0 < e'.
Proof.
  intros HR BS' EX. pose proof HR as (b1 & b2 & b3 & b4 & b5). set (slot := 28 :: zeros 8) in *. set (t := radical_show ls lr rs rr e) in *.
  assert (W : wf_bytes slot) by (apply Forall_forall; intros z I; cbn in I; unfold is_byte; lia).
  destruct (C103_reload_value ls lr rs rr e slot HR BS' eq_refl W EX) as (d' & ls' & lr' & rs' & rr' & e' & L & RC' & SN & _ & E').
  assert (RP : real_payload KRealRadical d').
  { destruct (shown_values ls lr rs rr e ltac:(lia) ltac:(lia) ltac:(lia)) as (V1 & V2 & V3 & V4 & V5 & V6). cbv zeta in *.
    pose proof (show_written ls lr rs rr e ltac:(lia) ltac:(lia) ltac:(lia)) as T. pose proof (shown_form ls lr rs rr e ltac:(lia) ltac:(lia) ltac:(lia)) as F.
    assert (Y : Z.abs (scalar (r_fst (shown ls lr rs rr e))) < 1000 /\ radicand (r_fst (shown ls lr rs rr e)) < 1000 /\ Z.abs (scalar2 (shown ls lr rs rr e)) < 1000 /\
      radicand2 (shown ls lr rs rr e) < 1000 /\ Z.abs (denominator (shown ls lr rs rr e)) < 1000).
    { rewrite ?V1, ?V2, ?V3, ?V4, ?V5; destruct (vanishes ls lr); destruct (vanishes rs rr); cbn [orb andb] in *; lia. }
    destruct Y as (Y1 & Y2 & Y3 & Y4 & Y5).
    assert (Y6 : radicand (r_fst (shown ls lr rs rr e)) = radicand2 (shown ls lr rs rr e) -> Z.abs (scalar (r_fst (shown ls lr rs rr e)) + scalar2 (shown ls lr rs rr e)) < 1000).
    { rewrite V1, V2, V3, V4. destruct (vanishes ls lr); destruct (vanishes rs rr); cbn [orb andb]; intros Q; lia. }
    apply (C73_accepted_iff (shown ls lr rs rr e)) in EX as (E0 & L0 & N1 & N2); auto.
    destruct (radical_load_spec (shown ls lr rs rr e) t slot (rad_form_wf _ F N1 N2) T eq_refl W) as [_ R].
    destruct (R E0 L0 Y1 Y2 Y3 Y4 Y5 Y6) as (t' & k & a & b & a2 & b2' & H & H1 & H2 & H3 & H4 & H5 & H6 & _).
    unfold t in H. rewrite L in H. injection H as ->. apply rad_buf_payload; lia. }
  exists d', ls', lr', rs', rr', e'. split; [|auto]. destruct RP as (L9 & W9 & _). split; [|now split].
  unfold real_new. change (real_fresh KRealRadical) with (@oret buffer (Buf true slot)). rewrite obind_oret. cbn [part_load]. unfold t. rewrite L. reflexivity.
Qed.
Lemma written_plain a b : 0 <= b -> ~ vanishes a b = true -> exists A, plain A /\ term_text (written (minus_of a) a b) = minus_of a ++ A /\ (forall c, In c A -> 48 <= c <= 57 \/ c = ROOT).
Proof.
  intros B V. exists (term_text (written [] a b)). split; [|split; [apply term_split|]].
  - split; [apply term_nonempty|]. intros c I. apply written_chars in I; [|exact B]. destruct I as [[]|I]. apply number_plain. lia.
  - intros c I. apply written_chars in I; [|exact B]. now destruct I as [[]|I].
Qed.
Lemma one_term a b e : 0 <= b -> 0 <= e -> vanishes a b = false ->
  signed_plain (str_replace (s2l "+-") (s2l "-") (if e =? 1 then radical_reduce (radical_term a b) else radical_reduce (radical_term a b) ++ s2l "/" ++ str_of_int e)).
Proof.
  intros B E V. rewrite reduce_term, V by exact B. destruct (written_plain a b B ltac:(congruence)) as (A & PA & -> & CA).
  set (u := if e =? 1 then [] else s2l "/" ++ str_of_int e).
  assert (CU : forall c, In c u -> 47 <= c <= 57).
  { unfold u. intros c I. destruct (e =? 1); [destruct I|]. apply in_app_or in I as [I|I]; [cbn in I; lia|]. rewrite plain_number in I by exact E. apply number_chars in I; lia. }
  match goal with |- signed_plain (str_replace _ _ ?x) =>
    assert (Q : x = minus_of a ++ A ++ u) by (unfold u; destruct (e =? 1); [now rewrite app_nil_r|now rewrite <- app_assoc]); rewrite Q; clear Q end.
  change (s2l "+-") with (43 :: [45]). rewrite str_replace_none.
  2:{ apply in_app3; [unfold minus_of; destruct (a <? 0); cbn; lia|]. apply in_app3; intros I; [apply CA in I; unfold ROOT in I; lia|apply CU in I; lia]. }
  exists (A ++ u). split.
  - split; [destruct PA as [PA _]; destruct A; [contradiction|discriminate]|]. intros c I. apply in_app_or in I as [I|I]; [now apply PA|]. apply number_plain. apply CU in I. lia.
  - unfold minus_of. destruct (a <? 0); [now right|now left].
Qed.
Theorem C108_radical_part : forall fp d ls lr rs rr e, radical_comps (Buf true d) = Ok (ls, lr, rs, rr, e) -> in_range ls lr rs rr e ->
  (lr = rr -> Z.abs (ls + rs) < 1000) -> e <> 0 -> (ls <> 0 /\ lr <> 0 /\ (rs = 0 \/ rr = 0)) \/ (rs <> 0 /\ rr <> 0 /\ (ls = 0 \/ lr = 0)) ->
  exists t d' ls' lr' rs' rr' e', real_text KRealRadical (Buf true d) = Ok t /\ signed_plain t /\ own fp KRealRadical t d' /\
    radical_comps (Buf true d') = Ok (ls', lr', rs', rr', e') /\ P_Text.same_number ls lr rs rr e ls' lr' rs' rr' e' /\ 0 < e'.
Proof.
  intros fp d ls lr rs rr e RC HR BS NE ONE. pose proof HR as (b1 & b2 & b3 & b4 & b5).
  assert (EX : exists b, radical_load (radical_show ls lr rs rr e) (Buf true (28 :: zeros 8)) = (b, oret tt)).
  { apply (C103_reload_iff ls lr rs rr e (28 :: zeros 8) HR BS eq_refl); [apply Forall_forall; intros z I; cbn in I; unfold is_byte; lia|]. split; [exact NE|]. split; [lia|]. lia. }
  destruct (radical_own fp ls lr rs rr e HR BS EX) as (d' & ls' & lr' & rs' & rr' & e' & O & Q).
  exists (radical_show ls lr rs rr e), d', ls', lr', rs', rr', e'. split; [cbn [real_text]; unfold radical_string; rewrite RC; reflexivity|].
  split; [|now split]. unfold radical_show.
  destruct ONE as [(N1 & N2 & N3)|(N1 & N2 & N3)].
  - assert (V : vanishes ls lr = false) by (unfold vanishes; lia). assert (V' : vanishes rs rr = true) by (unfold vanishes; lia).
    pose proof (one_term ls lr e ltac:(lia) ltac:(lia) V) as S. rewrite (reduce_term rs rr), V' by lia. rewrite reduce_term, V in * by lia.
    pose proof (term_nonempty (minus_of ls) ls lr) as TN. destruct (term_text (written (minus_of ls) ls lr)); [contradiction|exact S].
  - assert (V : vanishes rs rr = false) by (unfold vanishes; lia). assert (V' : vanishes ls lr = true) by (unfold vanishes; lia).
    pose proof (one_term rs rr e ltac:(lia) ltac:(lia) V) as S. rewrite (reduce_term ls lr), V' by lia. rewrite reduce_term, V in * by lia.
    pose proof (term_nonempty (minus_of rs) rs rr) as TN. destruct (term_text (written (minus_of rs) rs rr)); [contradiction|exact S].
Qed.
Print Assumptions C108_radical_part.

(** * The misread texts *)
Lemma int_single n k : 0 <= k < 10 -> (str_of_int n = [k + 48] <-> n = k).
Proof.
  intros K. rewrite str_of_int_text. unfold minus_of. destruct (n <? 0) eqn:S.
  - split; [|lia]. intros E. exfalso. change (s2l "-") with [45] in E. cbn [app] in E. remember (k + 48) as q. injection E as E _. lia.
  - destruct (single (Z.abs n) k ltac:(lia) K) as [Q _]. cbn [app]. rewrite <- leqb_iff, Q. lia.
Qed.
Lemma int_minus n : str_of_int n = s2l "-1" <-> n = -1.
Proof.
  rewrite str_of_int_text. unfold minus_of. destruct (n <? 0) eqn:S.
  - destruct (single (Z.abs n) 1 ltac:(lia) ltac:(lia)) as [Q _]. split.
    + intros E. assert (E' : text_of (digits (Z.abs n)) = [1 + 48]) by (now injection E). apply leqb_iff in E'. rewrite Q in E'. lia.
    + intros ->. reflexivity.
  - split; [|lia]. intros E. cbn [app] in E. pose proof (number_chars (Z.abs n) 45 ltac:(lia)) as N. rewrite E in N. specialize (N (or_introl eq_refl)). lia.
Qed.
Lemma show_zero n k : 1 <= k -> Z.gcd n k = 1 -> (fraction_show (n, k) = s2l "0" <-> n = 0).
Proof.
  intros K G. unfold fraction_show. cbn [fst snd]. destruct (k =? 1) eqn:Q.
  - rewrite app_nil_r. apply (int_single n 0). lia.
  - split.
    + intros E. exfalso. apply (f_equal (memb 47)) in E. change (memb 47 (s2l "0")) with false in E. apply memb_false in E. apply E. apply in_or_app. right. now left.
    + intros ->. rewrite Z.gcd_0_l in G. lia.
Qed.
Lemma show_bar n k : 1 <= k -> (In 47 (fraction_show (n, k)) <-> k <> 1).
Proof.
  intros K. unfold fraction_show. cbn [fst snd]. destruct (k =? 1) eqn:Q.
  - rewrite app_nil_r. split; [intros I; apply int_chars in I; lia|lia].
  - split; [lia|]. intros _. apply in_or_app. right. now left.
Qed.
Lemma before_bar (u v u' v' : list Z) : ~ In 47 u -> ~ In 47 u' -> u ++ 47 :: v = u' ++ 47 :: v' -> u = u' /\ v = v'.
Proof.
  revert u'. induction u as [|x u IH]; intros [|y u'] N N' E; cbn [app] in E.
  - now injection E.
  - exfalso. injection E as E _. apply N'. now left.
  - exfalso. injection E as E _. apply N. now left.
  - injection E as <- E. destruct (IH u') as [-> ->]; auto; intros I; [apply N|apply N']; now right.
Qed.
Lemma show_unit n k : 1 <= k -> ((exists r, fraction_show (n, k) = s2l "1/" ++ r \/ fraction_show (n, k) = s2l "-1/" ++ r) <-> Z.abs n = 1 /\ k <> 1).
Proof.
  intros K. split.
  - intros (r & E). assert (I : In 47 (fraction_show (n, k))) by (destruct E as [-> | ->]; cbn; auto). apply show_bar in I; [|exact K]. split; [|exact I].
    unfold fraction_show in E. cbn [fst snd] in E. replace (k =? 1) with false in E by lia.
    assert (NI : ~ In 47 (str_of_int n)) by (intros J; apply int_chars in J; lia).
    destruct E as [E|E].
    + change (s2l "1/" ++ r) with ([49] ++ 47 :: r) in E. apply before_bar in E as [E _]; auto; [|cbn; lia]. apply (int_single n 1) in E; lia.
    + change (s2l "-1/" ++ r) with ([45; 49] ++ 47 :: r) in E. apply before_bar in E as [E _]; auto; [|cbn; lia]. apply int_minus in E. lia.
  - intros [A N]. exists (str_of_int k). unfold fraction_show. cbn [fst snd]. replace (k =? 1) with false by lia.
    assert (C : n = 1 \/ n = -1) by lia. destruct C as [-> | ->]; [left|right]; reflexivity.
Qed.
Lemma fraction_misread n1 k1 n2 k2 : 1 <= k1 -> 1 <= k2 -> Z.gcd n1 k1 = 1 -> Z.gcd n2 k2 = 1 ->
  (misread (fraction_show (n1, k1)) KRealFraction (fraction_show (n2, k2)) <-> (n1 <> 0 /\ Z.abs n2 = 1 /\ k2 <> 1) \/ (n1 = 0 /\ n2 <> 0 /\ k2 = 1)).
Proof.
  intros K1 K2 G1 G2. unfold misread, barred, closing. rewrite (show_zero n1 k1 K1 G1), (show_zero n2 k2 K2 G2), (show_bar n2 k2 K2), (show_unit n2 k2 K2).
  split.
  - intros [(H1 & _ & H2)|[(_ & [H|H] & _)|(H1 & H2 & _ & H3)]]; [left; auto|discriminate H|discriminate H|right]. repeat split; auto. lia.
  - intros [H|(H1 & H2 & H3)]; [left|right; right]; [tauto|]. repeat split; auto; try tauto; lia.
Qed.
(** What is assumed of Python's [Fraction(text)] besides: nothing before the bar
    is an error. *)
Definition refuses_bars (fp : str -> result (Z * Z)) : Prop :=
  forall r, (exists x, fp (s2l "/" ++ r) = Err x) /\ (exists x, fp (s2l "-/" ++ r) = Err x).
Lemma retag_fraction t d : length d = 9%nat -> wf_bytes d -> 0 <= t < 64 -> real_fraction (Buf true (retag t d)) = real_fraction (Buf true d).
Proof. intros L W T. unfold real_fraction. now rewrite retag_decimal. Qed.
(** Complex fractions: exactly which are read back. *)
Theorem C108_fraction_iff : forall fp e t0 dr di n1 k1 n2 k2, reads_fractions fp -> refuses_bars fp ->
  e_type e = [t0] -> is_byte t0 -> e_data e = Buf true (dr ++ di) -> length dr = 9%nat -> wf_bytes dr -> length di = 9%nat -> wf_bytes di ->
  nth 0 dr 0 mod 64 = 27 -> nth 0 di 0 mod 64 = 27 ->
  real_fraction (Buf true dr) = Ok (n1, k1) -> real_fraction (Buf true di) = Ok (n2, k2) -> Z.abs n1 < 10 ^ 5 * k1 -> Z.abs n2 < 10 ^ 5 * k2 ->
  exists s, complex_text e = oret s /\
  ((exists e' x y, complex_load fp s e = oret e' /\ get_real e' = oret x /\ get_imag e' = oret y /\
     real_fraction (r_buf x) = Ok (n1, k1) /\ real_fraction (r_buf y) = Ok (n2, k2)) <->
   ~ ((n1 <> 0 /\ Z.abs n2 = 1 /\ k2 <> 1) \/ (n1 = 0 /\ n2 <> 0 /\ k2 = 1))).
Proof.
  intros fp e t0 dr di n1 k1 n2 k2 FP FB ET B0 ED L1 W1 L2 W2 T1 T2 R1 R2 M1 M2.
  assert (KI : In (KRealFraction, 27, KComplexFraction) part_kinds) by (cbn; tauto).
  destruct (fraction_form dr n1 k1 R1) as [K1 G1]. destruct (fraction_form di n2 k2 R2) as [K2 G2].
  destruct (own_fraction fp n1 k1 FP K1 G1 M1) as (d1 & O1 & F1). destruct (own_fraction fp n2 k2 FP K2 G2 M2) as (d2 & O2 & F2).
  pose proof (show_plain n1 k1 ltac:(lia)) as S1. pose proof (show_plain n2 k2 ltac:(lia)) as S2.
  assert (X1 : real_text KRealFraction (Buf true dr) = Ok (fraction_show (n1, k1))) by (cbn [real_text]; unfold fraction_string; now rewrite R1).
  assert (X2 : real_text KRealFraction (Buf true di) = Ok (fraction_show (n2, k2))) by (cbn [real_text]; unfold fraction_string; now rewrite R2).
  destruct (get_parts e dr di _ _ _ _ _ _ ED L1 W1 L2 W2 KI KI T1 T2) as [GR GI].
  exists (complex_show (fraction_show (n1, k1)) KRealFraction (fraction_show (n2, k2))). split.
  { unfold complex_text. rewrite GR, obind_oret. cbn [r_cls r_buf]. rewrite X1. unfold olift at 1. rewrite obind_ret_l, GI, obind_oret. cbn [r_cls r_buf]. rewrite X2.
    unfold olift. now rewrite obind_ret_l. }
  rewrite <- (fraction_misread n1 k1 n2 k2) by (auto; lia). split.
  - intros (e' & x & y & LD & GX & GY & FX & FY) MR. pose proof MR as MC. apply (fraction_misread n1 k1 n2 k2) in MC; auto; try lia.
    destruct (signed_sg _ S1) as (na & A & PA & EA). destruct (signed_sg _ S2) as (nb & B & PB & EB).
    pose proof (show_pieces KRealFraction na A nb B PA PB) as P. cbv zeta in P. rewrite <- EA, <- EB in P.
    assert (LD18 : length (dr ++ di) = 18%nat) by (rewrite app_length; lia). assert (WD : wf_bytes (dr ++ di)) by (now apply wf_bytes_app).
    assert (N1 : nth 0 (dr ++ di) 0 mod 64 = 27) by (rewrite app_nth1 by lia; exact T1).
    assert (N2 : nth 9 (dr ++ di) 0 mod 64 = 27) by (rewrite app_nth2 by lia; rewrite L1; exact T2).
    assert (ZB : leqb (fraction_show (n2, k2)) (s2l "0") = false).
    { apply leqb_false. intros Q. apply show_zero in Q; [|lia|exact G2]. subst n2. rewrite Z.gcd_0_l in G2. lia. }
    rewrite ZB in P. destruct MC as [(Nn & U & Nk)|(Z1 & Nn & Ok1)].
    + assert (ZA : leqb (fraction_show (n1, k1)) (s2l "0") = false) by (apply leqb_false; intros Q; apply show_zero in Q; [contradiction|lia|exact G1]).
      rewrite ZA in P. cbn [is_barred] in P.
      destruct (proj2 (show_unit n2 k2 ltac:(lia)) (conj U Nk)) as (r & BR).
      assert (BE : B = s2l "1/" ++ r) by (rewrite EB in BR; destruct BR as [BR|BR]; apply (sg_one nb B _ r PB BR); cbn; auto).
      rewrite BE, starts_with_app in P. change (skipn 1 (s2l "1/" ++ r)) with (47 :: r) in P.
      destruct O1 as (O1 & LA & WA).
      destruct (complex_load_gen fp _ e t0 _ _ _ _ _ _ _ _ _ d1 P ET B0 ED LD18 WD KI KI N1 N2 O1 LA WA) as [_ G].
      assert (RF : exists w x, real_new fp KRealFraction (sg nb ++ 47 :: r) = (w, Err x)).
      { unfold real_new. change (real_fresh KRealFraction) with (@oret buffer (Buf true (24 :: zeros 8))). rewrite obind_oret. cbn [part_load]. unfold fraction_load.
        assert (SQ : squash (sg nb ++ 47 :: r) = sg nb ++ 47 :: squash r) by (now destruct nb). rewrite SQ.
        destruct (FB (squash r)) as [(x1 & E1) (x2 & E2)]. destruct nb; [change (sg true ++ 47 :: squash r) with (s2l "-/" ++ squash r); rewrite E2|change (sg false ++ 47 :: squash r) with (s2l "/" ++ squash r); rewrite E1]; do 2 eexists; reflexivity. }
      destruct RF as (w & x0 & RF). rewrite (G w x0 RF) in LD. discriminate LD.
    + assert (ZA : fraction_show (n1, k1) = s2l "0") by (apply show_zero; auto; lia).
      assert (BN : memb 47 B = false).
      { apply memb_false. intros I. assert (J : In 47 (fraction_show (n2, k2))) by (rewrite EB; apply in_or_app; now right). apply show_bar in J; lia. }
      rewrite ZA in P at 2. rewrite BN in P. cbn [is_barred andb negb] in P. change (leqb (s2l "0") (s2l "0")) with true in P. cbv iota in P.
      destruct O2 as (O2 & LB & WB). destruct (own_fraction fp 0 1 FP ltac:(lia) eq_refl ltac:(lia)) as (d0 & (O0 & L0 & W0) & F0). change (fraction_show (0, 1)) with (s2l "0") in O0.
      destruct (complex_load_gen fp _ e t0 _ _ _ _ _ _ _ _ _ d2 P ET B0 ED LD18 WD KI KI N1 N2 O2 LB WB) as [G _].
      rewrite (G d0 O0 L0 W0) in LD. assert (EE : e_data e' = Buf true (retag 27 d2 ++ retag 27 d0)) by (injection LD as <-; reflexivity).
      rewrite (get_real_ok e' KRealFraction 27 KComplexFraction d2 (retag 27 d0) KI LB WB EE) in GX. injection GX as <-. cbn [r_buf] in FX.
      rewrite retag_fraction in FX by (auto; lia). rewrite F2 in FX. injection FX as <- _. contradiction.
  - intros NM. destruct (C108_reload fp e t0 dr di _ _ _ _ _ _ _ _ d1 d2 ET B0 ED L1 W1 L2 W2 KI KI T1 T2 X1 X2 S1 S2 O1 O2 NM) as (s & e' & XT & LD & _ & GX & GY).
    assert (TS : s = complex_show (fraction_show (n1, k1)) KRealFraction (fraction_show (n2, k2))).
    { unfold complex_text in XT. rewrite GR, obind_oret in XT. cbn [r_cls r_buf] in XT. rewrite X1 in XT. unfold olift at 1 in XT. rewrite obind_ret_l, GI, obind_oret in XT. cbn [r_cls r_buf] in XT. rewrite X2 in XT.
      unfold olift in XT. rewrite obind_ret_l in XT. now injection XT. }
    subst s. exists e'. do 2 eexists. split; [exact LD|]. split; [exact GX|]. split; [exact GY|]. cbn [r_buf].
    destruct O1 as (_ & LA & WA). destruct O2 as (_ & LB & WB). rewrite !retag_fraction by (auto; lia). now split.
Qed.
Print Assumptions C108_fraction_iff.

(** * Radicals of two terms *)
Lemma parts_many s na A nb B nc C z : ~ In 91 s -> ~ In 106 s -> core s = sg na ++ A ++ pm nb ++ B ++ pm nc ++ C ++ [z] -> flat A -> flat B -> z <> 43 -> z <> 45 ->
  complex_parts s = Ok (sg na ++ A, unitless (sg nb ++ B)).
Proof.
  intros N1 N2 E FA FB Z1 Z2. unfold complex_parts. rewrite (norm_core s N1 N2), E, !replace1_app, expand_sign, (flat_expand A FA), (flat_expand B FB).
  replace (str_replace [45] (s2l "+-") (pm nb)) with (43 :: sg nb) by (now destruct nb).
  replace (str_replace [45] (s2l "+-") (pm nc)) with (43 :: sg nc) by (now destruct nc).
  rewrite (str_replace_none 45) with (s := [z]) by (intros [I|[]]; lia). set (X := str_replace [45] (s2l "+-") C).
  rewrite strip_expanded; [|exact FA|].
  2:{ exists (A ++ (43 :: sg nb) ++ B ++ (43 :: sg nc) ++ X), z. split; [now rewrite <- !app_assoc|exact Z1]. }
  change (sg na ++ A ++ (43 :: sg nb) ++ B ++ (43 :: sg nc) ++ X ++ [z]) with (sg na ++ A ++ 43 :: (sg nb ++ B ++ 43 :: (sg nc ++ X ++ [z]))). rewrite app_assoc.
  rewrite split_on_app by (apply sg_no43; apply FA). rewrite app_assoc. rewrite split_on_app by (apply sg_no43; apply FB).
  assert (NE : exists u v, split_on 43 (sg nc ++ X ++ [z]) = u :: v).
  { destruct (split_on 43 (sg nc ++ X ++ [z])) eqn:Q; [|eauto]. exfalso. revert Q. generalize (sg nc ++ X ++ [z]). intros l. induction l as [|c l IH]; cbn; [discriminate|].
    destruct (c =? 43); [discriminate|]. destruct (split_on 43 l); [discriminate|discriminate]. }
  destruct NE as (u & v & ->). destruct (flat_first A FA) as (x & r & EA & _). unfold pick_parts.
  destruct (sg na ++ A) as [|p0 p] eqn:Q; [exfalso; apply app_eq_nil in Q as [_ Q]; rewrite EA in Q; discriminate Q|]. reflexivity.
Qed.
(** The text of two terms. *)
Lemma two_shown ls lr rs rr e : 0 <= lr -> 0 <= rr -> 0 <= e -> vanishes ls lr = false -> vanishes rs rr = false ->
  radical_show ls lr rs rr e = s2l "(" ++ minus_of ls ++ term_text (written [] ls lr) ++ plus_of rs ++ term_text (written [] rs rr) ++ s2l ")" ++ s2l "/" ++ str_of_int e.
Proof.
  intros HL HR HE V1 V2. unfold radical_show. rewrite !reduce_term, V1, V2 by assumption.
  pose proof (term_nonempty (minus_of rs) rs rr) as N2. pose proof (term_nonempty (minus_of ls) ls lr) as N1.
  set (L := term_text (written (minus_of ls) ls lr)) in *. set (R := term_text (written (minus_of rs) rs rr)) in *.
  transitivity (str_replace (s2l "+-") (s2l "-") (s2l "(" ++ L ++ s2l "+" ++ R ++ s2l ")" ++ s2l "/" ++ str_of_int e)).
  { destruct L; [contradiction|]. destruct R; [contradiction|]. reflexivity. }
  assert (CL : forall c, In c L -> 48 <= c <= 57 \/ c = ROOT \/ c = 45).
  { intros c I. apply (written_chars _ ls lr) in I as [I|[I|I]]; auto. apply minus_chars in I. auto. }
  assert (CR : forall c, In c (term_text (written [] rs rr)) -> 48 <= c <= 57 \/ c = ROOT).
  { intros c I. apply (written_chars _ rs rr) in I as [I|[I|I]]; auto. destruct I. }
  assert (TAIL : ~ In 43 (term_text (written [] rs rr) ++ s2l ")" ++ s2l "/" ++ str_of_int e)).
  { intros I. apply in_app_or in I as [I|I]; [apply CR in I; unfold ROOT in I; lia|]. destruct I as [I|[I|I]]; [discriminate I|discriminate I|].
    change (In 43 (str_of_int e)) in I. rewrite plain_number in I by exact HE. apply number_chars in I; lia. }
  change (s2l "+-") with [43; 45]. change (s2l "(" ++ L ++ ?x) with ((40 :: L) ++ x).
  rewrite str_replace_app by (intros [I|I]; [discriminate I|apply CL in I; unfold ROOT in I; lia]).
  cbn [app]. change (s2l "(") with [40]. cbn [app]. f_equal. rewrite (app_assoc (minus_of ls)), <- term_split. fold L. f_equal. subst R. rewrite term_split. unfold minus_of, plus_of. destruct (rs <? 0) eqn:S.
  - change (s2l "+" ++ (s2l "-" ++ ?x) ++ ?y) with ([43; 45] ++ x ++ y). rewrite str_replace_hit. rewrite str_replace_none by exact TAIL. reflexivity.
  - cbn [app] in *. change (s2l "+") with [43]. cbn [app]. rewrite str_replace_miss.
    + rewrite str_replace_none by exact TAIL. reflexivity.
    + pose proof (term_nonempty [] rs rr) as N. destruct (term_text (written [] rs rr)) as [|c r] eqn:Q; [contradiction|].
      cbn. specialize (CR c (or_introl eq_refl)). destruct c; try reflexivity. unfold ROOT in CR. lia.
Qed.
(** An opening parenthesis is ignored. *)
Lemma opened_load s b : s <> [] -> radical_load (s2l "(" ++ s) b = radical_load s b.
Proof.
  intros N. assert (P : radical_parse (s2l "(" ++ s) = radical_parse s).
  { unfold radical_parse, replacer. cbn [fold_left fst snd]. change (squash (s2l "(" ++ s)) with (([40] : list Z) ++ squash s). change (s2l "(") with ([40] : list Z). rewrite str_replace_hit. reflexivity. }
  unfold radical_load. rewrite P. destruct s; [contradiction|]. reflexivity.
Qed.
Lemma retag_comps t d : length d = 9%nat -> radical_comps (Buf true (retag t d)) = radical_comps (Buf true d).
Proof. intros L. nine d L. reflexivity. Qed.
(** The pieces of a text with a two-term imaginary part: only the beginning of the
    parenthesis is found. *)
Lemma two_pieces na A ls lr rs rr e : plain A -> sg na ++ A <> s2l "0" -> 0 <= lr -> 0 <= rr -> 0 <= e -> vanishes ls lr = false -> vanishes rs rr = false ->
  complex_parts (complex_show (sg na ++ A) KRealRadical (radical_show ls lr rs rr e)) =
  Ok (sg na ++ A, s2l "(" ++ if ls <? 0 then [] else term_text (written [] ls lr)).
Proof.
  intros PA NZ HL HR HE V1 V2. rewrite two_shown by assumption. set (L := term_text (written [] ls lr)). set (R := term_text (written [] rs rr)).
  assert (CL : forall c, In c L -> 48 <= c <= 57 \/ c = ROOT) by (intros c I; apply (written_chars _ ls lr) in I as [[]|I]; auto).
  assert (CR : forall c, In c R -> 48 <= c <= 57 \/ c = ROOT) by (intros c I; apply (written_chars _ rs rr) in I as [[]|I]; auto).
  set (E := str_of_int e). assert (CE : forall c, In c E -> 48 <= c <= 57) by (intros c I; unfold E in I; rewrite plain_number in I by exact HE; apply number_chars in I; lia).
  unfold complex_show. replace (leqb (s2l "(" ++ minus_of ls ++ L ++ plus_of rs ++ R ++ s2l ")" ++ s2l "/" ++ E) (s2l "0")) with false by reflexivity.
  replace (leqb (sg na ++ A) (s2l "0")) with false by (symmetry; now apply leqb_false). cbn [make_imag].
  set (T := L ++ plus_of rs ++ R ++ s2l ")" ++ s2l "/" ++ E).
  assert (NT : forall c, In c T -> 40 < c).
  { unfold T. intros c I. apply in_app_or in I as [I|I]; [apply CL in I; unfold ROOT in I; lia|]. apply in_app_or in I as [I|I]; [unfold plus_of in I; destruct (rs <? 0); cbn in I; lia|].
    apply in_app_or in I as [I|I]; [apply CR in I; unfold ROOT in I; lia|]. apply in_app_or in I as [I|I]; [cbn in I; lia|]. apply in_app_or in I as [I|I]; [cbn in I; lia|]. apply CE in I. lia. }
  assert (RW : replacer ((sg na ++ A) ++ s2l " + " ++ (s2l "(" ++ minus_of ls ++ T) ++ s2l " * i") [(s2l "+ -", s2l "- "); (s2l " 1i", s2l " i")] =
    (sg na ++ A) ++ s2l " + " ++ (s2l "(" ++ minus_of ls ++ T) ++ s2l " * i").
  { unfold replacer. cbn [fold_left fst snd].
    assert (U : forall k x, k = [43; 32; 45] -> str_replace k x ((sg na ++ A) ++ s2l " + " ++ (s2l "(" ++ minus_of ls ++ T) ++ s2l " * i") = (sg na ++ A) ++ s2l " + " ++ (s2l "(" ++ minus_of ls ++ T) ++ s2l " * i").
    { intros k x ->. rewrite str_replace_app by (apply sg_no43; apply plain_not; [exact PA|inset]). f_equal.
      change (s2l " + " ++ (s2l "(" ++ ?u) ++ ?v) with (([32] : list Z) ++ 43 :: 32 :: 40 :: (u ++ v)). rewrite str_replace_app by (cbn; lia). rewrite !str_replace_miss by reflexivity. do 4 f_equal.
      assert (G : forall w, (forall c, In c w -> c <> 32) -> str_replace [43; 32; 45] x (w ++ s2l " * i") = w ++ s2l " * i").
      { induction w as [|c w IH]; intros H; [reflexivity|]. cbn [app]. rewrite str_replace_miss; [f_equal; apply IH; intros y Y; apply H; now right|].
        cbn [starts_with]. destruct (43 =? c); [|reflexivity]. destruct w as [|d w]; [reflexivity|]. cbn [app starts_with].
        replace (32 =? d) with false; [reflexivity|]. symmetry. apply Z.eqb_neq. intros <-. apply (H 32); auto. right. now left. }
      apply G. intros c I. apply in_app_or in I as [I|I]; [unfold minus_of in I; destruct (ls <? 0); cbn in I; lia|]. apply NT in I. lia. }
    change (s2l "+ -") with ([43; 32; 45] : list Z). rewrite (U _ (s2l "- ") eq_refl).
    change (s2l " 1i") with ([32; 49; 105] : list Z).
    rewrite str_replace_app by (apply in_app3; [destruct na; cbn; lia|apply plain_not; [exact PA|inset]]). f_equal.
    change (s2l " + " ++ (s2l "(" ++ ?u) ++ ?v) with (32 :: 43 :: 32 :: 40 :: (u ++ v)). rewrite !str_replace_miss by reflexivity. do 4 f_equal.
    rewrite str_replace_app by (intros I; apply in_app_or in I as [I|I]; [unfold minus_of in I; destruct (ls <? 0); cbn in I; lia|apply NT in I; lia]). reflexivity. }
  rewrite RW.
  assert (CT : core T = T).
  { apply core_id. intros c I. pose proof (NT c I). unfold T in I. split; [intros J|intros ->; clear - I CL CR CE].
    - assert (B : 41 <= c <= 57 \/ c = ROOT); [|unfold ROOT in B; cbn in J; lia]. apply in_app_or in I as [I|I]; [apply CL in I; lia|]. apply in_app_or in I as [I|I]; [unfold plus_of in I; destruct (rs <? 0); cbn in I; lia|].
      apply in_app_or in I as [I|I]; [apply CR in I; lia|]. apply in_app_or in I as [I|I]; [cbn in I; lia|]. apply in_app_or in I as [I|I]; [cbn in I; lia|]. apply CE in I. lia.
    - apply in_app_or in I as [I|I]; [apply CL in I; unfold ROOT in I; lia|]. apply in_app_or in I as [I|I]; [unfold plus_of in I; destruct (rs <? 0); cbn in I; lia|].
      apply in_app_or in I as [I|I]; [apply CR in I; unfold ROOT in I; lia|]. apply in_app_or in I as [I|I]; [cbn in I; lia|]. apply in_app_or in I as [I|I]; [cbn in I; lia|]. apply CE in I. lia. }
  assert (CO : core ((sg na ++ A) ++ s2l " + " ++ (s2l "(" ++ minus_of ls ++ T) ++ s2l " * i") = sg na ++ A ++ pm false ++ s2l "(" ++ minus_of ls ++ T ++ [105]).
  { rewrite !core_app, (plain_core A PA), CT, <- !app_assoc. unfold minus_of. destruct na, (ls <? 0); reflexivity. }
  assert (N91 : forall x, x = 91 \/ x = 106 -> ~ In x ((sg na ++ A) ++ s2l " + " ++ (s2l "(" ++ minus_of ls ++ T) ++ s2l " * i")).
  { intros x X. apply in_app3; [apply in_app3|apply in_app3; [|apply in_app3; [apply in_app3; [|apply in_app3]|]]].
    - destruct na; cbn; lia.
    - apply plain_not; [exact PA|]. destruct X as [->| ->]; inset.
    - cbn. lia.
    - cbn. lia.
    - unfold minus_of. destruct (ls <? 0); cbn; lia.
    - intros I. unfold T in I. apply in_app_or in I as [I|I]; [apply CL in I; unfold ROOT in I; lia|]. apply in_app_or in I as [I|I]; [unfold plus_of in I; destruct (rs <? 0); cbn in I; lia|].
      apply in_app_or in I as [I|I]; [apply CR in I; unfold ROOT in I; lia|]. apply in_app_or in I as [I|I]; [cbn in I; lia|]. apply in_app_or in I as [I|I]; [cbn in I; lia|]. apply CE in I. lia.
    - cbn. lia. }
  assert (FO : forall X, (forall c, In c X -> 48 <= c <= 57 \/ c = ROOT) -> flat (s2l "(" ++ X) /\ unitless (s2l "(" ++ X) = s2l "(" ++ X).
  { intros X H. split.
    - split; [discriminate|]. split; intros [I|I]; try discriminate I; apply H in I; unfold ROOT in I; lia.
    - unfold unitless. rewrite str_replace_none; [reflexivity|]. intros [I|I]; [discriminate I|]. apply H in I. unfold ROOT in I. lia. }
  destruct (ls <? 0) eqn:S.
  - destruct (FO [] ltac:(intros c [])) as [F U]. rewrite (parts_many _ na A false (s2l "(" ++ []) true T 105); [|now apply N91; left|now apply N91; right| |now apply plain_flat|exact F|lia|lia].
    + reflexivity.
    + rewrite CO. unfold minus_of. rewrite S. reflexivity.
  - destruct (FO L CL) as [F U]. rewrite (parts_many _ na A false (s2l "(" ++ L) (rs <? 0) (R ++ s2l ")" ++ s2l "/" ++ E) 105); [|now apply N91; left|now apply N91; right| |now apply plain_flat|exact F|lia|lia].
    + cbn [sg]. change (([] : str) ++ ?x) with x. f_equal. f_equal. exact U.
    + rewrite CO. unfold minus_of. rewrite S. cbn [app]. unfold T, plus_of, pm. rewrite <- !app_assoc. destruct (rs <? 0); reflexivity.
Qed.

(** A real part and a two-term radical as imaginary part: if the first term is
    positive, the text loads without a warning as the first term alone, without
    the second term and without the denominator; if it is negative, the text
    loads without a warning with the imaginary part 1 (all that is left of it is
    the opening parenthesis). *)
Theorem C108_two_terms : forall fp e t0 dr di cr tr xr a dr' ls lr rs rr k,
  e_type e = [t0] -> is_byte t0 -> e_data e = Buf true (dr ++ di) -> length dr = 9%nat -> wf_bytes dr -> length di = 9%nat -> wf_bytes di ->
  In (cr, tr, xr) part_kinds -> nth 0 dr 0 mod 64 = tr -> nth 0 di 0 mod 64 = 29 ->
  real_text cr (Buf true dr) = Ok a -> signed_plain a -> a <> s2l "0" -> own fp cr a dr' ->
  radical_comps (Buf true di) = Ok (ls, lr, rs, rr, k) -> in_range ls lr rs rr k -> ls <> 0 -> lr <> 0 -> rs <> 0 -> rr <> 0 ->
  exists s, complex_text e = oret s /\
  (0 < ls -> exists e' y ls' lr' rs' rr' k', complex_load fp s e = oret e' /\ get_imag e' = oret y /\
     radical_comps (r_buf y) = Ok (ls', lr', rs', rr', k') /\ P_Text.same_number ls lr 0 0 1 ls' lr' rs' rr' k' /\ 0 < k') /\
  (ls < 0 -> exists e' y, complex_load fp s e = oret e' /\ get_imag e' = oret y /\ radical_comps (r_buf y) = Ok (1, 1, 0, 0, 1)).
Proof.
  intros fp e t0 dr di cr tr xr a dr' ls lr rs rr k ET B0 ED L1 W1 L2 W2 K1 T1 T2 XA SA NZ (OA & LA & WA) RC HR N1 N2 N3 N4.
  assert (KI : In (KRealRadical, 29, KComplexRadical) part_kinds) by (cbn; tauto). pose proof HR as (b1 & b2 & b3 & b4 & b5).
  destruct (get_parts e dr di _ _ _ _ _ _ ED L1 W1 L2 W2 K1 KI T1 T2) as [GR GI].
  assert (XB : real_text KRealRadical (Buf true di) = Ok (radical_show ls lr rs rr k)) by (cbn [real_text]; unfold radical_string; now rewrite RC).
  exists (complex_show a KRealRadical (radical_show ls lr rs rr k)). split.
  { unfold complex_text. rewrite GR, obind_oret. cbn [r_cls r_buf]. rewrite XA. unfold olift at 1. rewrite obind_ret_l, GI, obind_oret. cbn [r_cls r_buf]. rewrite XB.
    unfold olift. now rewrite obind_ret_l. }
  destruct (signed_sg a SA) as (na & A & PA & EA). rewrite EA in NZ.
  assert (V1 : vanishes ls lr = false) by (unfold vanishes; lia). assert (V2 : vanishes rs rr = false) by (unfold vanishes; lia).
  pose proof (two_pieces na A ls lr rs rr k PA NZ ltac:(lia) ltac:(lia) ltac:(lia) V1 V2) as P. rewrite <- EA in P.
  assert (LD : length (dr ++ di) = 18%nat) by (rewrite app_length; lia). assert (WD : wf_bytes (dr ++ di)) by (now apply wf_bytes_app).
  assert (M1 : nth 0 (dr ++ di) 0 mod 64 = tr) by (rewrite app_nth1 by lia; exact T1).
  assert (M2 : nth 9 (dr ++ di) 0 mod 64 = 29) by (rewrite app_nth2 by lia; rewrite L1; exact T2).
  destruct (complex_load_gen fp _ e t0 _ _ _ _ _ _ _ _ _ dr' P ET B0 ED LD WD K1 KI M1 M2 OA LA WA) as [G1 G2]. split; intros S.
  - assert (EX : exists b, radical_load (radical_show ls lr 0 0 1) (Buf true (28 :: zeros 8)) = (b, oret tt)).
    { apply (C103_reload_iff ls lr 0 0 1 (28 :: zeros 8)); [unfold in_range; lia|lia|reflexivity|apply Forall_forall; intros z I; cbn in I; unfold is_byte; lia|]. split; [lia|]. split; lia. }
    destruct (radical_own fp ls lr 0 0 1 ltac:(unfold in_range; lia) ltac:(lia) EX) as (d' & ls' & lr' & rs' & rr' & e' & (O & L9 & W9) & RC' & SN & E').
    assert (SH : radical_show ls lr 0 0 1 = term_text (written [] ls lr)).
    { unfold radical_show. rewrite !reduce_term, V1 by lia. change (vanishes 0 0) with true. cbv iota. rewrite term_split. unfold minus_of. replace (ls <? 0) with false by lia.
      cbn [app]. pose proof (term_nonempty [] ls lr) as NE. destruct (term_text (written [] ls lr)) as [|c r] eqn:Q; [contradiction|].
      change (1 =? 1) with true. cbv iota. apply (str_replace_none 43). rewrite <- Q. intros I. apply written_chars in I; [|lia]. unfold ROOT in I. destruct I as [[]|I]. lia. }
    replace (ls <? 0) with false in G1 by lia. rewrite SH in O.
    assert (O' : real_new fp KRealRadical (s2l "(" ++ term_text (written [] ls lr)) = oret (Real KRealRadical (Buf true d'))).
    { rewrite <- O. unfold real_new. change (real_fresh KRealRadical) with (@oret buffer (Buf true (28 :: zeros 8))). rewrite !obind_oret. cbn [part_load]. rewrite opened_load by apply term_nonempty. reflexivity. }
    specialize (G1 d' O' L9 W9). do 7 eexists. split; [exact G1|]. split.
    { apply (get_imag_ok _ KRealRadical 29 KComplexRadical d' (retag tr dr')); [exact KI|exact L9|exact W9| |reflexivity]. now rewrite retag_length. }
    cbn [r_buf]. split; [rewrite retag_comps by exact L9; exact RC'|now split].
  - replace (ls <? 0) with true in G1 by lia. specialize (G1 [28; 0; 1; 0; 0; 1; 0; 0; 1] eq_refl eq_refl ltac:(apply Forall_forall; intros z I; cbn in I; unfold is_byte; lia)).
    do 2 eexists. split; [exact G1|]. split; [|instantiate (1 := Real KRealRadical (Buf true (retag 29 [28; 0; 1; 0; 0; 1; 0; 0; 1]))); reflexivity].
    apply (get_imag_ok _ KRealRadical 29 KComplexRadical [28; 0; 1; 0; 0; 1; 0; 0; 1] (retag tr dr')); [exact KI|reflexivity| |now rewrite retag_length|reflexivity].
    apply Forall_forall; intros z I; cbn in I; unfold is_byte; lia.
Qed.
Print Assumptions C108_two_terms.

(** * Refutations *)
(** A complex number with given parts. *)
Definition parts18 (dr di : bytes) : entry := with_data cplx0 (Buf true (dr ++ di)).
(** What the text of a number loads as. *)
Definition back (e : entry) : out bytes := do s := complex_text e in do e' := complex_load fraction1 s e in oret (calc_data e').
(** Concrete numbers: 1/2 + i/3 is refused, 2 - i loses its imaginary part, 3i of
    a fraction kind becomes the real number 3, zero radicals and multiples of pi
    are refused, and sums of roots are cut. *)
Theorem C108_unit_fraction_refuted : exists e s, complex_text e = oret s /\ s = s2l "1/2 + i/3" /\ complex_load fraction1 s e = ([], Err ValueError).
Proof.
  exists (parts18 [27; 127; 80; 0; 0; 0; 0; 0; 0] [27; 127; 51; 51; 51; 51; 51; 51; 51]). eexists. split; [vm_compute; reflexivity|]. split; vm_compute; reflexivity.
Qed.
Theorem C108_minus_one_refuted : exists e s e', complex_text e = oret s /\ s = s2l "2 - i" /\ complex_load fraction1 s e = oret e' /\
  e_data e = Buf true [12; 128; 32; 0; 0; 0; 0; 0; 0; 140; 128; 16; 0; 0; 0; 0; 0; 0] /\ e_data e' = Buf true [12; 128; 32; 0; 0; 0; 0; 0; 0; 140; 128; 0; 0; 0; 0; 0; 0; 0].
Proof.
  exists (parts18 [12; 128; 32; 0; 0; 0; 0; 0; 0] [140; 128; 16; 0; 0; 0; 0; 0; 0]). do 2 eexists. split; [vm_compute; reflexivity|]. split; [vm_compute; reflexivity|]. split; [vm_compute; reflexivity|]. split; vm_compute; reflexivity.
Qed.
Theorem C108_whole_imaginary_refuted : exists e s e', complex_text e = oret s /\ s = s2l "3" /\ complex_load fraction1 s e = oret e' /\
  e_data e = Buf true [12; 128; 0; 0; 0; 0; 0; 0; 0; 27; 128; 48; 0; 0; 0; 0; 0; 0] /\ e_data e' = Buf true [12; 128; 48; 0; 0; 0; 0; 0; 0; 27; 128; 0; 0; 0; 0; 0; 0; 0].
Proof.
  exists (parts18 [12; 128; 0; 0; 0; 0; 0; 0; 0] [27; 128; 48; 0; 0; 0; 0; 0; 0]). do 2 eexists. split; [vm_compute; reflexivity|]. split; [vm_compute; reflexivity|]. split; [vm_compute; reflexivity|]. split; vm_compute; reflexivity.
Qed.
Theorem C108_split_radical_refuted : exists e s e', complex_text e = oret s /\
  s = s2l "(2" ++ [ROOT] ++ s2l "5+4" ++ [ROOT] ++ s2l "3)/7 + 5" ++ [ROOT] ++ s2l "2 * i" /\ complex_load fraction1 s e = oret e' /\
  (do x := get_real e' in olift (real_text (r_cls x) (r_buf x))) = oret (s2l "2" ++ [ROOT] ++ s2l "5") /\
  (do x := get_imag e' in olift (real_text (r_cls x) (r_buf x))) = oret (s2l "4" ++ [ROOT] ++ s2l "3/7").
Proof.
  exists (parts18 [29; 0; 7; 0; 64; 2; 0; 48; 5] [29; 0; 1; 0; 0; 5; 0; 16; 2]). do 2 eexists. split; [vm_compute; reflexivity|]. split; [vm_compute; reflexivity|]. split; [vm_compute; reflexivity|]. split; vm_compute; reflexivity.
Qed.
Print Assumptions C108_unit_fraction_refuted.
Print Assumptions C108_minus_one_refuted.
Print Assumptions C108_whole_imaginary_refuted.
Print Assumptions C108_split_radical_refuted.
(** The parser used in the examples has the assumed properties. *)
Lemma fraction1_reads : reads_fractions fraction1.
Proof. exact (proj1 C104_example). Qed.
Lemma fraction1_bars : refuses_bars fraction1.
Proof.
  intros r. change (s2l "/" ++ r) with ([] ++ 47 :: r). change (s2l "-/" ++ r) with ([45] ++ 47 :: r). unfold fraction1, fraction0.
  rewrite !split_on_app by (cbn; lia).
  assert (H : forall x, (parse_int 10 x = Err ValueError) ->
    exists e, match x :: split_on 47 r with [a] => match parse_int 10 a with Ok n => Ok (n, 1) | Err e => Err e end
      | _ => match x :: split_on 47 r with [a; b] => match parse_int 10 a, parse_int 10 b with
              | Ok n, Ok d => if d =? 0 then Err ZeroDivisionError else Ok (n / Z.gcd n d, d / Z.gcd n d) | _, _ => Err ValueError end | _ => Err ValueError end end = Err e).
  { intros x E. destruct (split_on 47 r) as [|b [|c q]]; rewrite ?E; eauto. }
  split; apply H; reflexivity.
Qed.
Example C108_example :
  (let e := parts18 [12; 128; 32; 0; 0; 0; 0; 0; 0] [27; 127; 117; 0; 0; 0; 0; 0; 0] in
   complex_text e = oret (s2l "2 + 3i/4") /\ back e = oret (calc_data e) /\ ~ misread (s2l "2") KRealFraction (s2l "3/4")) /\
  (let e := parts18 [27; 127; 80; 0; 0; 0; 0; 0; 0] [155; 127; 117; 0; 0; 0; 0; 0; 0] in
   complex_text e = oret (s2l "1/2 - 3i/4") /\ back e = oret (calc_data e) /\ real_fraction (Buf true [155; 127; 117; 0; 0; 0; 0; 0; 0]) = Ok (-3, 4)) /\
  (let e := parts18 [12; 128; 32; 0; 0; 0; 0; 0; 0] [29; 0; 7; 0; 64; 2; 0; 48; 5] in
   complex_text e = oret (s2l "2 + (2" ++ [ROOT] ++ s2l "5+4" ++ [ROOT] ++ s2l "3)/7 * i") /\ back e = oret [12; 128; 32; 0; 0; 0; 0; 0; 0; 29; 0; 1; 0; 0; 2; 0; 16; 5] /\
   radical_comps (Buf true [29; 0; 7; 0; 64; 2; 0; 48; 5]) = Ok (2, 5, 4, 3, 7)) /\
  (let e := parts18 [12; 128; 32; 0; 0; 0; 0; 0; 0] [30; 128; 21; 0; 0; 0; 0; 0; 0] in
   complex_text e = oret (s2l "2 + 1.5" ++ [960] ++ s2l "i") /\ back e = oret (calc_data e)) /\
  (let e := parts18 [12; 128; 32; 0; 0; 0; 0; 0; 0] [29; 0; 7; 0; 0; 2; 0; 16; 5] in
   complex_text e = oret (s2l "2 + 2" ++ [ROOT] ++ s2l "5/7 * i") /\ back e = oret (calc_data e)) /\
  reads_fractions fraction1 /\ refuses_bars fraction1.
Proof.
  repeat apply conj; try apply fraction1_reads; try apply fraction1_bars; try (vm_compute; reflexivity).
  intros [(_ & _ & r & [E|E])|[(_ & [E|E] & _)|(E & _)]]; discriminate E.
Qed.
