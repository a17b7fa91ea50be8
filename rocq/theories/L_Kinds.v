(** Texts with a character foreign to a notation are refused by its reader. *)
From Verif Require Import PyBase M_Data M_Numeric M_Flags M_Models M_Class M_Var M_Real M_Complex L_Base S_Data L_Data L_Var S_Real L_Real L_Radical S_Complex L_Complex.

Lemma starts_with_nth sub : forall s i x, starts_with sub s = true -> (i < length sub)%nat -> nth_error s i = Some x -> In x sub.
Proof.
  induction sub as [|a sub IH]; intros s i x S L E; [cbn in L; lia|].
  destruct s as [|b s]; [discriminate S|]. cbn [starts_with] in S. apply andb_prop in S as [A S]. destruct i as [|i]; cbn in E, L.
  - injection E as <-. left. lia.
  - right. eapply (IH s i); auto; lia.
Qed.
Lemma in_replace c z sub rep s : ~ In c (z :: sub) -> In c s -> In c (str_replace (z :: sub) rep s).
Proof.
  intros N. unfold str_replace.
  enough (G : forall s k, (forall i x, (i < k)%nat -> nth_error s i = Some x -> In x (z :: sub)) -> In c s -> In c (str_replace_aux (z :: sub) rep k s))
    by (intros I; apply G; auto; intros; lia).
  clear s. induction s as [|y s IH]; intros k K I; [destruct I|]. cbn [str_replace_aux]. destruct k as [|k].
  - destruct (starts_with (z :: sub) (y :: s)) eqn:S.
    + apply in_or_app; right. destruct I as [->|I]; [exfalso; apply N; apply (starts_with_nth _ _ 0%nat c S); [cbn; lia|reflexivity]|].
      apply IH; auto. intros i x L E. apply (starts_with_nth _ _ (Datatypes.S i) x S); [cbn in *; lia|exact E].
    + destruct I as [->|I]; [now left|right]. apply IH; auto. intros; lia.
  - destruct I as [->|I]; [exfalso; apply N; now apply (K O c); [lia|]|].
    apply IH; auto. intros i x L E. apply (K (S i) x); [lia|exact E].
Qed.
Lemma replace_absent x sub rep s : In x sub -> ~ In x s -> str_replace sub rep s = s.
Proof.
  intros I N. unfold str_replace. induction s as [|y s IH]; [reflexivity|]. cbn [str_replace_aux].
  destruct (starts_with sub (y :: s)) eqn:S.
  - exfalso. apply N. clear -I S. revert S. generalize (y :: s). clear y s. intros t. revert t. induction sub as [|a sub IH]; intros t S; [destruct I|].
    destruct t as [|b t]; [discriminate S|]. cbn [starts_with] in S. apply andb_prop in S as [A S]. destruct I as [->|I]; [left; lia|right; now apply IH].
  - f_equal. apply IH. intros J. apply N. now right.
Qed.
Lemma in_lstrip c cs s : ~ In c cs -> In c s -> In c (lstrip cs s).
Proof.
  intros N. induction s as [|y s IH]; intros I; [exact I|]. cbn [lstrip]. destruct (memb y cs) eqn:M; [|exact I].
  apply IH. destruct I as [->|I]; [exfalso; apply N; now apply memb_spec|exact I].
Qed.
Lemma lstrip_keep c cs s t : ~ In c cs -> In c s -> lstrip cs (s ++ t) = lstrip cs s ++ t.
Proof.
  intros N. induction s as [|y s IH]; intros I; [destruct I|]. cbn [app lstrip]. destruct (memb y cs) eqn:M; [|reflexivity].
  apply IH. destruct I as [->|I]; [exfalso; apply N; now apply memb_spec|exact I].
Qed.
Lemma in_split c x s : c <> x -> In c s -> exists p, In p (split_on x s) /\ In c p.
Proof.
  intros N. induction s as [|y s IH]; intros I; [destruct I|]. cbn [split_on]. destruct (Z.eqb_spec y x) as [->|Y].
  - destruct I as [->|I]; [congruence|]. destruct (IH I) as (p & P & Q). exists p. split; [now right|exact Q].
  - assert (NE : split_on x s <> []) by (destruct s; cbn; [discriminate|]; destruct (z =? x); [discriminate|]; destruct (split_on x s); discriminate).
    destruct (split_on x s) as [|p ps]; [congruence|]. destruct I as [->|I]; [exists (c :: p); split; now left|].
    destruct (IH I) as (q & [->|P] & Q); [exists (y :: q); split; [now left|now right]|exists q; split; [now right|exact Q]].
Qed.
Lemma in_squash c s : is_space c = false -> In c s -> In c (squash s).
Proof. intros S I. unfold squash. apply filter_In. split; [exact I|]. now rewrite S. Qed.
Lemma in_lower c s : c < 65 \/ 90 < c -> In c s -> In c (lower s).
Proof. intros R I. unfold lower. apply in_map_iff. exists c. split; [|exact I]. replace ((65 <=? c) && (c <=? 90)) with false by lia. reflexivity. Qed.

Lemma parse_int_errs b s x : parse_int b s = Err x -> x = ValueError.
Proof.
  unfold parse_int. destruct s as [|c r].
  - destruct (parse_digits _ _ _ _); congruence.
  - destruct (c =? 45); [|destruct (c =? 43)]; (destruct (parse_digits _ _ _ _); cbn [rmap]; congruence).
Qed.
Lemma parse_foreign c s : In c s -> c <> 43 -> c <> 45 -> c <> 95 -> digit_val c = None -> parse_int 10 s = Err ValueError.
Proof.
  intros I P M U D.
  assert (G : forall s a p, In c s -> parse_digits 10 s a p = None).
  { clear s I. induction s as [|y s IH]; intros a p I; [destruct I|]. cbn [parse_digits]. destruct I as [->|I].
    - replace (c =? 95) with false by lia. now rewrite D.
    - destruct (y =? 95); [destruct p; auto|]. destruct (digit_val y); [|reflexivity]. destruct (_ <? _); auto. }
  unfold parse_int. destruct s as [|y s]; [destruct I|].
  destruct (Z.eqb_spec y 45) as [->|]; [destruct I as [I|I]; [congruence|now rewrite G]|].
  destruct (Z.eqb_spec y 43) as [->|]; [destruct I as [I|I]; [congruence|now rewrite G]|]. now rewrite G.
Qed.

(** Characters no decimal contains: the slash, pi and the root. *)
Definition foreign (c : Z) : Prop := c = 47 \/ c = 960 \/ c = 8730.
(** More generally. *)
Definition alien (c : Z) : Prop := foreign c \/ c = 40.
Lemma alien_parse c s : alien c -> In c s -> parse_int 10 s = Err ValueError.
Proof. intros F I. apply (parse_foreign c); auto; destruct F as [[->|[->| ->]]| ->]; try lia; reflexivity. Qed.
Lemma foreign_parse c s : foreign c -> In c s -> parse_int 10 s = Err ValueError.
Proof. intros F. apply alien_parse. now left. Qed.
Lemma real_parse_alien c s : alien c -> In c s -> ~ In 101 s -> ~ In 69 s -> real_parse s = Err ValueError.
Proof.
  intros F I N1 N2. rewrite real_parse_steps by (intros ->; destruct I).
  set (t0 := replacer _ _). cbv zeta.
  assert (NS : forall x, In x (s2l "+-~|e.0") -> c <> x) by (intros x X; destruct F as [[->|[->| ->]]| ->]; intros <-; vm_compute in X; intuition discriminate).
  assert (LW : ~ In 101 (lower (squash s))).
  { unfold lower. intros X. apply in_map_iff in X as (y & Y & J). unfold squash in J. apply filter_In in J as [J _].
    destruct ((65 <=? y) && (y <=? 90)) eqn:R; [apply N2; replace 69 with y by lia; exact J|subst y; contradiction]. }
  assert (E0 : t0 = str_replace (s2l "~") (s2l "-") (lower (squash s))).
  { unfold t0, replacer. cbn [fold_left fst snd]. apply (replace_absent 101); [right; now left|]. clear -LW. revert LW. generalize (lower (squash s)) as x.
    intros x N J. apply N. clear N. induction x as [|y x IH]; [exact J|]. change (s2l "~") with [126] in *. change (y :: x) with ([y] ++ x) in J.
    rewrite replace1_app in J. apply in_app_or in J as [J|J]; [left|right; now apply IH]. unfold str_replace in J. cbn [str_replace_aux starts_with] in J.
    destruct (_ && _) in J; cbn in J; destruct J as [J|[]]; [discriminate J|exact J]. }
  assert (I0 : In c t0).
  { rewrite E0. apply in_replace; [intros [X|[]]; revert X; apply not_eq_sym, NS; vm_compute; tauto|].
    apply in_lower; [destruct F as [[->|[->| ->]]| ->]; lia|]. apply in_squash; [destruct F as [[->|[->| ->]]| ->]; reflexivity|exact I]. }
  assert (N0 : ~ In 101 t0).
  { rewrite E0. intros J. apply LW. revert J. generalize (lower (squash s)) as x. induction x as [|y x IH]; intros J; [exact J|]. change (s2l "~") with [126] in *. change (y :: x) with ([y] ++ x) in J.
    rewrite replace1_app in J. apply in_app_or in J as [J|J]; [left|right; now apply IH]. unfold str_replace in J. cbn [str_replace_aux starts_with] in J.
    destruct (_ && _) in J; cbn in J; destruct J as [J|[]]; [discriminate J|exact J]. }
  clearbody t0. clear E0 LW.
  assert (T : exists n, In c n /\ ~ In 101 n /\ rp_dot t0 = n ++ s2l "e0").
  { unfold rp_dot. destruct (memb 101 t0) eqn:M; [exfalso; apply N0; now apply memb_spec|].
    destruct (memb 46 (t0 ++ s2l "e0")) eqn:M2; [exists t0; auto|].
    exists (t0 ++ [46]). split; [apply in_or_app; now left|]. split; [intros J; apply in_app_or in J as [J|[J|[]]]; [auto|discriminate J]|].
    change (s2l "e") with [101]. rewrite replace1_app, (str_replace_none 101) by exact N0. rewrite <- app_assoc. reflexivity. }
  destruct T as (n & In' & Nn & ->).
  assert (ST : strip (s2l "+-") (n ++ s2l "e0") = lstrip (s2l "+-") n ++ s2l "e0").
  { unfold strip. rewrite (lstrip_keep c) by (auto; intros X; apply (NS c); auto; vm_compute in X |- *; tauto).
    change (s2l "e0") with ([101] ++ [48]). rewrite app_assoc. apply rstrip_snoc_id. vm_compute. intuition discriminate. }
  rewrite ST. set (m := lstrip (s2l "+-") n).
  assert (Im : In c m) by (apply in_lstrip; auto; intros X; apply (NS c); auto; vm_compute in X |- *; tauto).
  assert (Nm : ~ In 101 m).
  { intros J. apply Nn. revert J. unfold m. clear. induction n as [|y n IH]; intros J; [exact J|]. cbn [lstrip] in J. destruct (memb y _); [right; auto|exact J]. }
  unfold rp_end. change (m ++ s2l "e0") with (m ++ 101 :: [48]). rewrite split_on_app by exact Nm. change (split_on 101 [48]) with [[48]].
  destruct (in_split c 46 m) as (p & P & Q); [apply NS; vm_compute; tauto|exact Im|].
  destruct (split_on 46 m) as [|a [|b [|? ?]]]; try reflexivity.
  assert (OZ : forall x, In c x -> In c (or_zero x)) by (intros [|? ?] J; [destruct J|exact J]).
  destruct P as [->|[->|[]]].
  - now rewrite (alien_parse c) by auto.
  - destruct (parse_int 10 (or_zero a)) as [i|x] eqn:E; [|apply parse_int_errs in E; now subst x]. cbn [rbind].
    now rewrite (alien_parse c) by auto.
Qed.
Lemma real_parse_foreign c s : foreign c -> In c s -> ~ In 101 s -> ~ In 69 s -> real_parse s = Err ValueError.
Proof. intros F. apply real_parse_alien. now left. Qed.

Lemma radical_errs s x : radical_parse s = Err x -> x = ValueError.
Proof.
  unfold radical_parse. set (s0 := lstrip _ _). clearbody s0. destruct (memb 46 s0); [congruence|]. cbv zeta.
  set (s1 := if memb 43 _ then _ else _). clearbody s1.
  destruct (split_on 47 s1) as [|top [|bot [|? ?]]]; try congruence.
  destruct (split_on 43 top) as [|tl [|tr [|? ?]]]; try congruence.
  set (tl' := if memb ROOT tl then _ else _). set (tr' := if memb ROOT tr then _ else _). clearbody tl' tr'.
  destruct (split_on ROOT tl') as [|ls [|lr [|? ?]]]; try congruence.
  destruct (split_on ROOT tr') as [|rs [|rr [|? ?]]]; try congruence.
  destruct (parse_int 10 (or_one ls)) eqn:E1; cbn [rbind]; [|apply parse_int_errs in E1; congruence].
  destruct (parse_int 10 lr) eqn:E2; cbn [rbind]; [|apply parse_int_errs in E2; congruence].
  destruct (parse_int 10 (or_one rs)) eqn:E3; cbn [rbind]; [|apply parse_int_errs in E3; congruence].
  destruct (parse_int 10 rr) eqn:E4; cbn [rbind]; [|apply parse_int_errs in E4; congruence].
  destruct (_ || _); [congruence|]. destruct (if _ <? _ then _ else _) as [[[? ?] ?] ?].
  destruct (parse_int 10 (lstrip _ bot)) eqn:E5; cbn [rbind]; [|apply parse_int_errs in E5; congruence].
  destruct (_ =? 0); [congruence|]. repeat destruct (_ =? _); cbn [rbind]; congruence.
Qed.
Lemma radical_parse_pi s : In 960 s -> radical_parse s = Err ValueError.
Proof.
  intros I. destruct (radical_parse s) as [v|x] eqn:R; [exfalso|f_equal; now apply (radical_errs s)]. revert R.
  unfold radical_parse. set (s0 := lstrip _ _).
  assert (I0 : In 960 s0).
  { unfold s0. apply in_lstrip; [vm_compute; intuition discriminate|]. unfold replacer. cbn [fold_left fst snd].
    repeat (apply in_replace; [vm_compute; intuition discriminate|]). apply in_squash; [reflexivity|exact I]. }
  clearbody s0. destruct (memb 46 s0); [congruence|]. cbv zeta.
  set (s1 := if memb 43 _ then _ else _).
  assert (I1 : In 960 s1).
  { unfold s1. set (s2 := if memb ROOT _ then _ else _). assert (I2 : In 960 s2).
    { unfold s2. set (s3 := if memb 47 s0 then _ else _). assert (I3 : In 960 s3) by (unfold s3; destruct (memb 47 s0); [exact I0|apply in_or_app; now left]).
      clearbody s3. destruct (memb ROOT s3); [exact I3|]. apply in_replace; [vm_compute; intuition discriminate|].
      do 3 (apply in_or_app; right). exact I3. }
    clearbody s2. destruct (memb 43 s2); [exact I2|]. apply in_replace; [vm_compute; intuition discriminate|exact I2]. }
  clearbody s1. clear I0.
  destruct (in_split 960 47 s1) as (p & P & Q); [lia|exact I1|].
  destruct (split_on 47 s1) as [|top [|bot [|? ?]]]; try congruence.
  assert (F : foreign 960) by (right; now left).
  destruct (split_on 43 top) as [|tl [|tr [|? ?]]] eqn:S; try congruence.
  set (tl' := if memb ROOT tl then _ else _). set (tr' := if memb ROOT tr then _ else _).
  destruct (split_on ROOT tl') as [|ls [|lr [|? ?]]] eqn:SL; try congruence.
  destruct (split_on ROOT tr') as [|rs [|rr [|? ?]]] eqn:SR; try congruence.
  assert (OO : forall x, In 960 x -> In 960 (or_one x)) by (intros x J; unfold or_one; destruct (rstrip _ x); [apply in_or_app; now left|exact J]).
  destruct P as [->|[->|[]]].
  - destruct (in_split 960 43 p) as (q & P & Q'); [lia|exact Q|]. rewrite S in P.
    assert (C : In 960 ls \/ In 960 lr \/ In 960 rs \/ In 960 rr).
    { destruct P as [<-|[<-|[]]].
      - assert (J : In 960 tl') by (unfold tl'; destruct (memb ROOT tl); [exact Q'|apply in_or_app; now left]).
        destruct (in_split 960 ROOT tl') as (r & P & Q2); [discriminate|exact J|]. rewrite SL in P. destruct P as [<-|[<-|[]]]; auto.
      - assert (J : In 960 tr') by (unfold tr'; destruct (memb ROOT tr); [exact Q'|apply in_or_app; now left]).
        destruct (in_split 960 ROOT tr') as (r & P & Q2); [discriminate|exact J|]. rewrite SR in P. destruct P as [<-|[<-|[]]]; auto. }
    destruct (parse_int 10 (or_one ls)) eqn:E1; cbn [rbind]; [|congruence].
    destruct (parse_int 10 lr) eqn:E2; cbn [rbind]; [|congruence].
    destruct (parse_int 10 (or_one rs)) eqn:E3; cbn [rbind]; [|congruence].
    destruct (parse_int 10 rr) eqn:E4; cbn [rbind]; [|congruence].
    destruct C as [C|[C|[C|C]]]; [apply OO in C| |apply OO in C|]; apply (foreign_parse 960) in C; auto; congruence.
  - destruct (parse_int 10 (or_one ls)) eqn:E1; cbn [rbind]; [|congruence].
    destruct (parse_int 10 lr) eqn:E2; cbn [rbind]; [|congruence].
    destruct (parse_int 10 (or_one rs)) eqn:E3; cbn [rbind]; [|congruence].
    destruct (parse_int 10 rr) eqn:E4; cbn [rbind]; [|congruence].
    destruct (_ || _); [congruence|]. destruct (if _ <? _ then _ else _) as [[[? ?] ?] ?].
    rewrite (foreign_parse 960); [cbn [rbind]; congruence|exact F|]. apply in_lstrip; [vm_compute; intuition discriminate|exact Q].
Qed.

(** * The search over the real kinds *)
Definition refuses (fp : str -> result (Z * Z)) (c : cls) (p : str) : Prop :=
  exists w x, real_new fp c p = (w, Err x) /\ (x = TypeError \/ x = ValueError).
Lemma refuses_step fp c p e : refuses fp c p -> exists w x, (do y := real_new fp c p in set_real e y) = (w, Err x) /\ caught x = true.
Proof. intros (w & x & E & C). rewrite E. exists w, x. split; [reflexivity|]. destruct C; now subst x. Qed.
Lemma try_first fp sub p e id c l2 w e1 y : issubclass c KRealEntry = true -> id <> sub ->
  (do x := real_new fp c p in set_real e x) = (w, Ok (e1, y)) ->
  forall l1, (forall i k, In (i, k) l1 -> issubclass k KRealEntry = true -> refuses fp k p) ->
  exists w', try_types fp (l1 ++ (id, c) :: l2) sub p e = (w', Ok e1).
Proof.
  intros C N S. induction l1 as [|[i k] l1 IH]; intros H; cbn [app try_types].
  - rewrite C, S. replace (id =? sub) with false by lia. cbn. eauto.
  - destruct IH as [w' IH]; [intros i' k' J; apply (H i' k'); now right|].
    destruct (issubclass k KRealEntry) eqn:K; [|cbn [negb orb]; eauto]. cbn [negb orb].
    destruct (i =? sub); [eauto|]. destruct (refuses_step fp k p e (H i k (or_introl eq_refl) K)) as (w0 & x & E & CX).
    rewrite E, CX, IH. eauto.
Qed.
Lemma try_none fp sub p e : forall l, (forall i k, In (i, k) l -> issubclass k KRealEntry = true -> refuses fp k p) ->
  exists w', try_types fp l sub p e = (w', Err ValueError).
Proof.
  induction l as [|[i k] l IH]; intros H; cbn [try_types]; [eexists; reflexivity|].
  destruct IH as [w' IH]; [intros i' k' J; apply (H i' k'); now right|].
  destruct (issubclass k KRealEntry) eqn:K; [|cbn [negb orb]; eauto]. cbn [negb orb].
  destruct (i =? sub); [eauto|]. destruct (refuses_step fp k p e (H i k (or_introl eq_refl) K)) as (w0 & x & E & CX).
  rewrite E, CX, IH. eauto.
Qed.
(** Where the real kinds stand in the table of types. *)
Lemma registry_reals : exists i0 i1 i2 i3 i4 i5 l r, registry = l ++ combine [i0; i1; i2; i3; i4; i5] real_order ++ r /\
  Forall (fun x => issubclass (snd x) KRealEntry = false) l /\ Forall (fun x => issubclass (snd x) KRealEntry = false) r /\
  forall c t k, In (c, t, k) part_kinds -> ~ In t [i0; i1; i2; i3; i4; i5].
Proof.
  exists 0, 14, 24, 28, 32, 33, [(21, KAppVar)], (skipn 7 registry). split; [reflexivity|].
  split; [repeat constructor|]. split; [cbn [skipn registry]; repeat constructor|].
  intros c t k I J. cbn in I. repeat (destruct I as [I|I]; [injection I as <- <- <-; cbn in J; lia|]). destruct I.
Qed.
Lemma registry_in i k : In (i, k) registry -> issubclass k KRealEntry = true -> In k real_order.
Proof. intros I K. cbn in I. repeat (destruct I as [I|I]; [injection I as <- <-; try discriminate K; cbn; tauto|]). destruct I. Qed.
Lemma search_first fp sub p e pre c post w e1 y ct ck : In (ct, sub, ck) part_kinds -> real_order = pre ++ c :: post ->
  (forall k, In k pre -> refuses fp k p) -> (do x := real_new fp c p in set_real e x) = (w, Ok (e1, y)) ->
  exists w', try_types fp registry sub p e = (w', Ok e1).
Proof.
  intros S O R E. destruct registry_reals as (i0 & i1 & i2 & i3 & i4 & i5 & l & r & EQ & FL & FR & NI). specialize (NI ct sub ck S). rewrite EQ.
  rewrite Forall_forall in FL.
  assert (G : forall pre' id l2, combine [i0; i1; i2; i3; i4; i5] real_order = pre' ++ (id, c) :: l2 -> map snd pre' = pre -> In id [i0; i1; i2; i3; i4; i5] ->
     exists w', try_types fp (l ++ combine [i0; i1; i2; i3; i4; i5] real_order ++ r) sub p e = (w', Ok e1)).
  { intros pre' id l2 C M I. rewrite C, <- !app_assoc. cbn [app]. rewrite app_assoc. eapply try_first; [| |exact E|].
    - assert (In c real_order) by (rewrite O; apply in_or_app; right; now left). cbn in H. intuition (subst; reflexivity).
    - intros ->. contradiction.
    - intros i k J K. apply in_app_or in J as [J|J]; [apply FL in J; cbn [snd] in J; congruence|]. apply R. rewrite <- M. apply in_map_iff. exists (i, k). auto. }
  unfold real_order in O |- *. cbn [combine] in G |- *.
  destruct pre as [|a0 pre]; [injection O as <- <-; apply (G [] i0 _ eq_refl eq_refl); cbn; tauto|injection O as <- O].
  destruct pre as [|a1 pre]; [injection O as <- <-; apply (G [(i0, KReal)] i1 _ eq_refl eq_refl); cbn; tauto|injection O as <- O].
  destruct pre as [|a2 pre]; [injection O as <- <-; apply (G [(i0, KReal); (i1, KUndefReal)] i2 _ eq_refl eq_refl); cbn; tauto|injection O as <- O].
  destruct pre as [|a3 pre]; [injection O as <- <-; apply (G [(i0, KReal); (i1, KUndefReal); (i2, KRealFraction)] i3 _ eq_refl eq_refl); cbn; tauto|injection O as <- O].
  destruct pre as [|a4 pre]; [injection O as <- <-; apply (G [(i0, KReal); (i1, KUndefReal); (i2, KRealFraction); (i3, KRealRadical)] i4 _ eq_refl eq_refl); cbn; tauto|injection O as <- O].
  destruct pre as [|a5 pre]; [injection O as <- <-; apply (G [(i0, KReal); (i1, KUndefReal); (i2, KRealFraction); (i3, KRealRadical); (i4, KRealPi)] i5 _ eq_refl eq_refl); cbn; tauto|injection O as <- O].
  destruct pre; discriminate O.
Qed.
Lemma part_types e D c1 t1 k1 : e_data e = Buf true D -> length D = 18%nat -> In (c1, t1, k1) part_kinds ->
  (nth 0 D 0 mod 64 = t1 -> real_type e = Ok c1 /\ real_subtype e = Ok t1) /\ (nth 9 D 0 mod 64 = t1 -> imag_type e = Ok c1).
Proof.
  intros ED LD I. destruct (part_kind_sub c1 t1 k1 I) as (_ & PT & _).
  assert (R : real_subtype e = Ok (nth 0 D 0 mod 64)).
  { unfold real_subtype. rewrite ED. change 0 with (Z.of_nat 0) at 1. apply (get_bits_at_nth 0 (Buf true D) (nth 0 D 0)). list_n D LD 18%nat; reflexivity. }
  assert (J : imag_subtype_get e = Ok (nth 9 D 0 mod 64)).
  { unfold imag_subtype_get. rewrite ED. change 9 with (Z.of_nat 9) at 1. apply (get_bits_at_nth 9 (Buf true D) (nth 9 D 0)). list_n D LD 18%nat; reflexivity. }
  split; intros <-; [split|]; [unfold real_type; now rewrite R|exact R|unfold imag_type; now rewrite J].
Qed.
Lemma complex_load_search fp s e t0 D p q c1 t1 k1 c2 t2 k2 pre c t k post da db : complex_parts s = Ok (p, q) ->
  e_type e = [t0] -> is_byte t0 -> e_data e = Buf true D -> length D = 18%nat -> wf_bytes D ->
  In (c1, t1, k1) part_kinds -> nth 0 D 0 mod 64 = t1 -> In (c2, t2, k2) part_kinds -> nth 9 D 0 mod 64 = t2 ->
  refuses fp c1 p -> real_order = pre ++ c :: post -> (forall x, In x pre -> refuses fp x p) -> In (c, t, k) part_kinds ->
  real_new fp c p = oret (Real c (Buf true da)) -> length da = 9%nat -> wf_bytes da ->
  real_new fp c2 q = oret (Real c2 (Buf true db)) -> length db = 9%nat -> wf_bytes db ->
  exists w, complex_load fp s e = (w, Ok (with_cls (with_type (with_data e (Buf true (retag t da ++ retag t2 db))) [t2]) k2)).
Proof.
  intros P ET B0 ED LD WD I1 T1 I2 T2 (w1 & x1 & N1 & C1) O R I NA La Wa NB Lb Wb.
  destruct (part_kind_sub c t k I) as (S & _ & _ & T). destruct (part_kind_sub c2 t2 k2 I2) as (S2 & _ & K2 & T2').
  unfold complex_load. rewrite P. unfold olift at 1. rewrite obind_ret_l.
  destruct (part_types e D c1 t1 k1 ED LD I1) as [[RT RS] _]; [exact T1|]. rewrite RT. unfold olift at 1. rewrite obind_ret_l.
  rewrite N1. cbn [obind]. replace (caught x1) with true by (destruct C1; now subst x1).
  rewrite RS. unfold olift at 1. cbn [obind].
  destruct (search_first fp t1 p e pre c post [] (with_data e (Buf true (retag t da ++ skipn 9 D))) (Real c (Buf true (retag t da))) c1 k1 I1 O R) as [w2 E2].
  { rewrite NA, obind_oret. now apply set_real_ok. }
  rewrite E2. cbn [app obind].
  set (e1 := with_data e (Buf true (retag t da ++ skipn 9 D))).
  destruct (retag_same t da La Wa T) as [_ Wr].
  assert (LD1 : length (retag t da ++ skipn 9 D) = 18%nat) by (rewrite app_length, retag_length, skipn_length; lia).
  destruct (part_types e1 (retag t da ++ skipn 9 D) c2 t2 k2 eq_refl LD1 I2) as [_ IT].
  rewrite IT by (rewrite <- T2; list_n D LD 18%nat; list_n da La 9%nat; reflexivity).
  unfold olift at 1. rewrite obind_ret_l, NB, obind_oret.
  rewrite (set_imag_ok e1 t0 c2 t2 db (retag t da ++ skipn 9 D)); auto.
  2:{ apply wf_bytes_app. split; [exact Wr|now apply wf_skipn]. }
  rewrite obind_oret, firstn_app_exact by (now rewrite retag_length). rewrite K2. eexists. reflexivity.
Qed.
