(** Lemmas for radicals. *)
From Verif Require Import L_Base M_Data M_Numeric M_Real S_Data L_Data S_Real L_Real.

Lemma unspaced_squash s : unspaced s = squash s.
Proof.
  unfold unspaced, without, squash. apply filter_ext. intros c. f_equal. unfold is_space, spaces. cbn [existsb]. lia.
Qed.
Lemma replace_del c s : str_replace [c] [] s = without [c] s.
Proof.
  unfold str_replace, without. induction s as [|x s IH]; auto. cbn [str_replace_aux starts_with filter existsb].
  rewrite (Z.eqb_sym x c). destruct (c =? x); cbn [andb orb negb app length pred]; now rewrite IH.
Qed.
Lemma without_without a b s : without a (without b s) = without (b ++ a) s.
Proof.
  unfold without. induction s as [|x s IH]; auto. cbn [filter]. rewrite existsb_app.
  destruct (existsb (Z.eqb x) b) eqn:E; cbn [negb orb]; auto. cbn [filter].
  destruct (existsb (Z.eqb x) a); cbn [negb]; now rewrite IH.
Qed.
(** What the replacer leaves of a radical. *)
Definition plus_sign (s : str) : str := if negative s then [43; 45] else if leqb s (s2l "+") then [43] else [].
Definition norm_term (t : term) : str :=
  text_of (t_scal t) ++ match t_rad t with Some (_, ds) => [ROOT] ++ text_of ds | None => [] end.
Definition norm_rad (r : radical) : str :=
  (plus_sign (t_sign (r_fst r)) ++ norm_term (r_fst r)) ++
  match r_snd r with Some t => plus_sign (t_sign t) ++ norm_term t | None => [] end ++
  match r_den r with Some (s, ds) => [47] ++ plus_sign s ++ text_of ds | None => [] end.
(** The three replacements, each a homomorphism at term boundaries. *)
Definition swap (s : str) : str :=
  str_replace (s2l "-") (s2l "+-") (str_replace (s2l "sqrt") [ROOT] (str_replace (s2l "~") (s2l "-") s)).
Lemma swap_app a b : ~ In 115 a -> swap (a ++ b) = swap a ++ swap b.
Proof.
  intros H. unfold swap. change (s2l "~") with [126]. change (s2l "-") with [45]. change (s2l "sqrt") with (115 :: s2l "qrt").
  assert (N : ~ In 115 (str_replace [126] [45] a)).
  { unfold str_replace. induction a as [|x a IH]; [intros []|]. cbn [str_replace_aux starts_with].
    destruct (126 =? x); cbn [andb length pred app].
    - intros [C|C]; [lia|]. apply IH in C; auto. intros I. apply H. now right.
    - intros [C|C]; [apply H; now left|]. apply IH in C; auto. intros I. apply H. now right. }
  rewrite replace1_app, str_replace_app by auto. rewrite replace1_app. f_equal.
  rewrite (str_replace_none 115 _ _ _ N). reflexivity.
Qed.
Lemma swap_root r b : is_root r -> swap (r ++ b) = [ROOT] ++ swap b.
Proof.
  intros [->| ->].
  - change [8730] with [ROOT]. rewrite swap_app; [reflexivity|]. cbn. unfold ROOT. lia.
  - unfold swap. change (s2l "~") with [126]. rewrite replace1_app.
    change (str_replace [126] (s2l "-") (s2l "sqrt")) with (115 :: s2l "qrt").
    change (s2l "sqrt") with (115 :: s2l "qrt"). rewrite str_replace_hit. change (s2l "-") with [45]. rewrite replace1_app. reflexivity.
Qed.
Lemma swap_text ds : Forall digit ds -> swap (text_of ds) = text_of ds.
Proof.
  intros H. unfold swap. change (s2l "~") with [126]. change (s2l "-") with [45]. change (s2l "sqrt") with (115 :: s2l "qrt").
  rewrite (str_replace_none 126) by (apply text_not_in; auto; lia). rewrite (str_replace_none 115) by (apply text_not_in; auto; lia).
  now rewrite str_replace_none by (apply text_not_in; auto; lia).
Qed.
Lemma swap_sign s : is_sign s -> swap s = plus_sign s.
Proof. intros [<-|[<-|[<-|[<-|[]]]]]; reflexivity. Qed.
Lemma sign_no_s s : is_sign s -> ~ In 115 s.
Proof. intros [<-|[<-|[<-|[<-|[]]]]] I; vm_compute in I; intuition lia. Qed.
Lemma swap_term t b : term_wf t -> swap (term_text t ++ b) = plus_sign (t_sign t) ++ norm_term t ++ swap b.
Proof.
  intros (HS & HD & HR). unfold term_text, norm_term. repeat rewrite <- app_assoc.
  rewrite swap_app, swap_sign by auto using sign_no_s. f_equal.
  rewrite swap_app, swap_text by (auto; apply text_not_in; auto; lia). f_equal.
  destruct (t_rad t) as [[r ds]|]; [|reflexivity]. destruct HR as (Hr & Hd & _).
  repeat rewrite <- app_assoc. rewrite swap_root by auto. f_equal. rewrite swap_app, swap_text by (auto; apply text_not_in; auto; lia). reflexivity.
Qed.
Lemma rad_wf_form r : rad_wf r -> rad_form r.
Proof.
  intros (H1 & H2 & H3). split; [exact H1|]. split; [destruct (r_snd r); tauto|]. destruct (r_den r) as [[s ds]|]; tauto.
Qed.
Lemma rad_form_wf r : rad_form r -> ~ rootless_sum r -> ~ signed_below_root r -> rad_wf r.
Proof.
  intros (H1 & H2 & H3) N1 N2. split; [exact H1|]. split.
  - destruct (r_snd r) as [t|] eqn:E; auto. destruct H2 as [H2 H2']. split; auto. split; auto.
    destruct (t_rad (r_fst r)) eqn:R1; [left; discriminate|]. destruct (t_rad t) eqn:R2; [right; discriminate|].
    exfalso. apply N1. now exists t.
  - destruct (r_den r) as [[s ds]|] eqn:E; auto. destruct H3 as (Hs & Hd & Nd). repeat split; auto.
    intros S R. destruct s as [|c s]; auto. exfalso. apply N2. split; auto. split; auto. exists (c :: s), ds. split; [exact E|discriminate].
Qed.
Lemma swap_radical r : rad_form r -> swap (rad_text r) = norm_rad r.
Proof.
  intros (H1 & H2 & H3). unfold rad_text, norm_rad. rewrite swap_term by auto. repeat rewrite <- app_assoc. do 2 f_equal.
  assert (D : swap match r_den r with Some (s, ds) => s2l "/" ++ s ++ text_of ds | None => [] end =
              match r_den r with Some (s, ds) => [47] ++ plus_sign s ++ text_of ds | None => [] end).
  { destruct (r_den r) as [[s ds]|]; [|reflexivity]. destruct H3 as (Hs & Hd & _).
    rewrite swap_app by (cbn; lia). rewrite (swap_app s), (swap_sign s), (swap_text ds) by auto using sign_no_s. reflexivity. }
  destruct (r_snd r) as [t|].
  - destruct H2 as (H2 & _). rewrite swap_term by auto. repeat rewrite <- app_assoc. do 2 f_equal. exact D.
  - exact D.
Qed.

(** * Parsing *)
Definition minus (s : str) : str := if negative s then [45] else [].
Lemma plus_minus s : is_sign s -> s <> [] -> plus_sign s = 43 :: minus s.
Proof. intros [<-|[<-|[<-|[<-|[]]]]] H; try reflexivity. now destruct H. Qed.
Lemma lstrip_plus s x : is_sign s -> (forall c r, x = c :: r -> c <> 43) -> lstrip (s2l "+") (plus_sign s ++ x) = minus s ++ x.
Proof.
  intros H N. assert (L : lstrip (s2l "+") x = x) by (apply lstrip_id; intros c r E; apply N in E; cbn; lia).
  assert (L2 : lstrip (s2l "+") (45 :: x) = 45 :: x) by (apply lstrip_id; intros c r E; injection E as <- _; cbn; lia).
  destruct H as [<-|[<-|[<-|[<-|[]]]]]; [exact L|exact L|exact L2|exact L2].
Qed.
Lemma norm_term_head t c r : term_wf t -> norm_term t = c :: r -> c <> 43.
Proof.
  intros (_ & HD & HR) E. unfold norm_term in E. destruct (t_scal t) as [|d ds].
  - destruct (t_rad t) as [[x ds]|]; [|now destruct HR]. cbn in E. injection E as <- _. unfold ROOT. lia.
  - cbn in E. injection E as <- _. inversion HD; subst. unfold digit in *. lia.
Qed.
Lemma norm_term_nonempty t : term_wf t -> norm_term t <> [].
Proof.
  intros (_ & HD & HR) E. unfold norm_term in E. apply app_eq_nil in E as [E1 E2].
  destruct (t_rad t) as [[x ds]|]; [discriminate E2|]. destruct (t_scal t); [now destruct HR|discriminate E1].
Qed.
Lemma norm_term_chars t c : term_wf t -> In c (norm_term t) -> 48 <= c <= 57 \/ (c = ROOT /\ t_rad t <> None).
Proof.
  intros (_ & HD & HR) I. unfold norm_term in I. apply in_app_or in I as [I|I].
  - apply text_in in I; auto.
  - destruct (t_rad t) as [[x ds]|]; [|destruct I]. destruct HR as (_ & Hd & _). apply in_app_or in I as [[<-|[]]|I].
    + right. split; auto. discriminate.
    + apply text_in in I; auto.
Qed.
Lemma minus_in s c : In c (minus s) -> c = 45.
Proof. unfold minus. destruct (negative s); cbn; intuition. Qed.
Lemma plus_in s c : In c (plus_sign s) -> c = 43 \/ c = 45.
Proof. unfold plus_sign. destruct (negative s); [|destruct (leqb s (s2l "+"))]; cbn; intuition. Qed.
(** Signed digits. *)
Lemma parse_minus s ds : Forall digit ds -> ds <> [] -> parse_int 10 (minus s ++ text_of ds) = Ok (signed s (number ds)).
Proof.
  intros H N. unfold minus, signed. destruct (negative s); [|now apply parse_text].
  pose proof (parse_signed (s2l "-") ds) as P. change (canon_sign (s2l "-")) with [45] in P. change (negative (s2l "-")) with true in P.
  apply P; auto. cbn. auto.
Qed.
Lemma or_one_scalar s ds : Forall digit ds ->
  parse_int 10 (or_one (minus s ++ text_of ds)) = Ok (signed s (match ds with [] => 1 | d :: l => number (d :: l) end)).
Proof.
  intros H. unfold or_one. destruct ds as [|d ds].
  - cbn [text_of map]. rewrite app_nil_r. unfold minus, signed. destruct (negative s); reflexivity.
  - destruct (@exists_last _ (d :: ds)) as (q & x & E); [discriminate|]. rewrite E in *.
    assert (Dx : digit x). { apply Forall_app in H as [_ H]. now inversion H. } unfold digit in Dx.
    rewrite text_app, app_assoc. cbn [text_of map]. rewrite rstrip_snoc_id by (cbn; lia).
    transitivity (parse_int 10 ((minus s ++ text_of q) ++ [x + 48])); [f_equal; destruct (minus s ++ text_of q); reflexivity|].
    rewrite <- app_assoc. change [x + 48] with (text_of [x]). rewrite <- text_app.
    apply parse_minus; auto. destruct q; discriminate.
Qed.
(** One signed term with its root made explicit. *)
Definition with_root (s : str) : str := if memb ROOT s then s else s ++ [ROOT] ++ s2l "1".
Lemma with_root_term t : term_wf t -> exists a b,
  split_on ROOT (with_root (minus (t_sign t) ++ norm_term t)) = [a; b] /\
  parse_int 10 (or_one a) = Ok (scalar t) /\ parse_int 10 b = Ok (radicand t).
Proof.
  intros W. assert (W' := W). destruct W' as (HS & HD & HR). unfold with_root, norm_term, scalar, radicand in *.
  assert (NA : ~ In ROOT (minus (t_sign t) ++ text_of (t_scal t))).
  { apply in_app3; [intros I; apply minus_in in I; discriminate I|apply text_not_in; auto; unfold ROOT; lia]. }
  destruct (t_rad t) as [[r ds]|].
  - destruct HR as (_ & Hd & Nd). replace (memb ROOT _) with true.
    2:{ symmetry. apply memb_spec. rewrite !in_app_iff. cbn. tauto. }
    rewrite app_assoc. cbn [app]. rewrite split_on_app by auto. rewrite split_on_none by (apply text_not_in; auto; unfold ROOT; lia).
    do 2 eexists. split; [reflexivity|]. split; [now apply or_one_scalar|now apply parse_text].
  - rewrite app_nil_r. replace (memb ROOT _) with false by (symmetry; now apply memb_false).
    cbn [app]. rewrite split_on_app by auto. rewrite split_on_none by (cbn; unfold ROOT; lia).
    do 2 eexists. split; [reflexivity|]. split; [now apply or_one_scalar|reflexivity].
Qed.
Lemma norm_term_in_root t : term_wf t -> (In ROOT (norm_term t) <-> t_rad t <> None).
Proof.
  intros W. split.
  - intros I. apply norm_term_chars in I as [I|[_ I]]; auto. unfold ROOT in I. lia.
  - intros N. unfold norm_term. destruct (t_rad t) as [[r ds]|]; [|congruence]. rewrite !in_app_iff. cbn. tauto.
Qed.
(** The rest of the parser, from the two terms on. *)
Definition rad_finish (ls lr rs rr : Z) (bot : str) : result (Z * Z * Z * Z * Z * Z) :=
  if (lr <? 0) || (rr <? 0) then Err ValueError
  else
    let '(ls, lr, rs, rr) :=
      if lr <? rr then (rs, rr, ls, lr) else if lr =? rr then (ls + rs, lr, 0, 0) else (ls, lr, rs, rr) in
    try d := parse_int 10 (lstrip (s2l "+") bot) in
    if d =? 0 then Err ValueError
    else
      let ls := ls * py_sign d in
      let rs := rs * py_sign d in
      try t := (if py_sign ls =? 1 then Ok (if py_sign rs =? -1 then 2 else 0)
                else if py_sign ls =? -1 then Ok (if py_sign rs =? 1 then 1 else 3)
                else Err ValueError) in
      Ok (t, Z.abs d, Z.abs ls, Z.abs rs, lr, rr).
Definition rad_split (s : str) : result (Z * Z * Z * Z * Z * Z) :=
  match split_on 47 s with
  | [top; bot] =>
      match split_on 43 top with
      | [tl; tr] =>
          match split_on ROOT (with_root tl), split_on ROOT (with_root tr) with
          | [ls; lr], [rs; rr] =>
              try ls := parse_int 10 (or_one ls) in
              try lr := parse_int 10 lr in
              try rs := parse_int 10 (or_one rs) in
              try rr := parse_int 10 rr in
              rad_finish ls lr rs rr bot
          | _, _ => Err ValueError
          end
      | _ => Err ValueError
      end
  | _ => Err ValueError
  end.
Definition fix_den (s : str) : str := if memb 47 s then s else s ++ s2l "/1".
Definition fix_root (s : str) : str :=
  if memb ROOT s then s else str_replace (s2l "/") ([ROOT] ++ s2l "1/") (s2l "0" ++ [ROOT] ++ s2l "1+" ++ s).
Definition fix_plus (s : str) : str :=
  if memb 43 s then s else str_replace (s2l "/") (s2l "+0" ++ [ROOT] ++ s2l "1/") s.
Definition rad_front (s : str) : str :=
  lstrip (s2l "+") (swap (str_replace (s2l "*") [] (str_replace (s2l ")") [] (str_replace (s2l "(") [] (squash s))))).
Lemma radical_parse_split s : radical_parse s =
  if memb 46 (rad_front s) then Err ValueError else rad_split (fix_plus (fix_root (fix_den (rad_front s)))).
Proof. reflexivity. Qed.
Lemma rad_split_ok tl tr bot a b c d ls lr rs rr : ~ In 43 tl -> ~ In 43 tr -> ~ In 47 tl -> ~ In 47 tr -> ~ In 47 bot ->
  split_on ROOT (with_root tl) = [a; b] -> split_on ROOT (with_root tr) = [c; d] ->
  parse_int 10 (or_one a) = Ok ls -> parse_int 10 b = Ok lr -> parse_int 10 (or_one c) = Ok rs -> parse_int 10 d = Ok rr ->
  rad_split (tl ++ [43] ++ tr ++ [47] ++ bot) = rad_finish ls lr rs rr bot.
Proof.
  intros H1 H2 H3 H4 H5 E1 E2 P1 P2 P3 P4. unfold rad_split.
  replace (tl ++ [43] ++ tr ++ [47] ++ bot) with ((tl ++ 43 :: tr) ++ 47 :: bot) by (rewrite <- app_assoc; reflexivity).
  rewrite split_on_app by (apply in_app3; auto; apply not_in_cons; auto; lia). rewrite split_on_none by auto.
  rewrite split_on_app, split_on_none by auto. rewrite E1, E2, P1. cbn [rbind]. rewrite P2. cbn [rbind]. rewrite P3. cbn [rbind]. rewrite P4. reflexivity.
Qed.
(** The denominator. *)
Definition bottom (r : radical) : str := match r_den r with Some (s, ds) => plus_sign s ++ text_of ds | None => [49] end.
Lemma bottom_parse r : rad_wf r -> parse_int 10 (lstrip (s2l "+") (bottom r)) = Ok (denominator r).
Proof.
  intros (_ & _ & H). unfold bottom, denominator. destruct (r_den r) as [[s ds]|]; [|reflexivity]. destruct H as (Hs & Hd & Nd & _).
  rewrite lstrip_plus; auto; [now apply parse_minus|]. intros c q E. destruct ds; [congruence|]. injection E as <- _. inversion Hd; subst. unfold digit in *. lia.
Qed.
Lemma bottom_chars r c : rad_wf r -> In c (bottom r) -> c = 43 \/ c = 45 \/ 48 <= c <= 57.
Proof.
  intros (_ & _ & H) I. unfold bottom in I. destruct (r_den r) as [[s ds]|].
  - destruct H as (Hs & Hd & _). apply in_app_or in I as [I|I]; [apply plus_in in I; tauto|apply text_in in I; auto].
  - cbn in I. intuition lia.
Qed.
Lemma radical_parse_value r s : rad_wf r -> without (spaces ++ s2l "()*") s = rad_text r ->
  radical_parse s = rad_finish (scalar (r_fst r)) (radicand (r_fst r)) (scalar2 r) (radicand2 r) (bottom r) \/
  (t_rad (r_fst r) = None /\ r_snd r = None /\
   radical_parse s = rad_finish 0 1 (scalar (r_fst r)) 1 (bottom r)).
Proof.
  intros W E. rewrite radical_parse_split.
  replace (rad_front s) with (lstrip (s2l "+") (norm_rad r)).
  2:{ unfold rad_front. rewrite <- unspaced_squash. change (s2l "*") with [42]. change (s2l ")") with [41]. change (s2l "(") with [40]. rewrite !replace_del. unfold unspaced. rewrite !without_without.
      change (spaces ++ [40] ++ [41] ++ [42]) with (spaces ++ s2l "()*"). rewrite E, swap_radical; [reflexivity|now apply rad_wf_form]. }
  assert (W' := W). destruct W' as (H1 & H2 & H3). set (t := r_fst r) in *.
  unfold norm_rad. fold t. rewrite <- app_assoc, lstrip_plus.
  2:{ apply H1. } 2:{ intros c q Q. destruct (norm_term t) as [|x y] eqn:Et; [now apply norm_term_nonempty in Et|]. injection Q as <- _. now apply (norm_term_head t x y). }
  set (A := minus (t_sign t) ++ norm_term t).
  set (B := match r_snd r with Some t => plus_sign (t_sign t) ++ norm_term t | None => [] end).
  set (DEN := match r_den r with Some (s0, ds) => [47] ++ plus_sign s0 ++ text_of ds | None => [] end).
  replace (minus (t_sign t) ++ norm_term t ++ B ++ DEN) with (A ++ B ++ DEN) by (unfold A; now rewrite <- app_assoc).
  assert (CA : forall c, In c A -> c = 45 \/ 48 <= c <= 57 \/ c = ROOT /\ t_rad t <> None).
  { intros c I. unfold A in I. apply in_app_or in I as [I|I]; [apply minus_in in I; auto|apply norm_term_chars in I; auto]. }
  assert (CB : forall c, In c B -> c = 43 \/ c = 45 \/ 48 <= c <= 57 \/ c = ROOT).
  { intros c I. unfold B in I. destruct (r_snd r) as [t2|]; [|destruct I]. destruct H2 as (H2 & _).
    apply in_app_or in I as [I|I]; [apply plus_in in I; intuition|apply norm_term_chars in I; intuition]. }
  assert (NB47 : ~ In 47 B) by (intros I; apply CB in I; unfold ROOT in I; lia).
  assert (NA47 : ~ In 47 A) by (intros I; apply CA in I; unfold ROOT in I; lia).
  assert (NA43 : ~ In 43 A) by (intros I; apply CA in I; unfold ROOT in I; lia).
  assert (CD : forall c, In c (bottom r) -> c = 43 \/ c = 45 \/ 48 <= c <= 57) by (intros; now apply (bottom_chars r)).
  assert (NB : ~ In 47 (bottom r)) by (intros I; apply CD in I; lia).
  replace (memb 46 (A ++ B ++ DEN)) with false.
  2:{ symmetry. apply memb_false. apply in_app3; [intros I; apply CA in I; unfold ROOT in I; lia|].
      apply in_app3; [intros I; apply CB in I; unfold ROOT in I; lia|]. unfold DEN. intros I.
      destruct (r_den r) as [[s0 ds]|] eqn:ED; [|destruct I]. destruct I as [I|I]; [lia|].
      assert (I' : In 46 (bottom r)) by (unfold bottom; rewrite ED; exact I). apply CD in I'. lia. }
  (* explicit denominator *)
  replace (fix_den (A ++ B ++ DEN)) with (A ++ B ++ [47] ++ bottom r).
  2:{ unfold fix_den, DEN, bottom. destruct (r_den r) as [[s0 ds]|].
      - replace (memb 47 _) with true; auto. symmetry. apply memb_spec. rewrite !in_app_iff. cbn. tauto.
      - rewrite app_nil_r. replace (memb 47 _) with false; [rewrite <- app_assoc; reflexivity|]. symmetry. apply memb_false. now apply in_app3. }
  assert (ND : ~ In ROOT (bottom r)) by (intros I; apply CD in I; unfold ROOT in I; lia).
  unfold fix_root. destruct (memb ROOT (A ++ B ++ [47] ++ bottom r)) eqn:MR; unfold fix_plus.
  - (* some root *)
    left. destruct (r_snd r) as [t2|] eqn:ES.
    + (* two terms *)
      destruct H2 as (H2 & N2 & _). unfold B in *. rewrite plus_minus in * by (auto; apply H2).
      replace (memb 43 _) with true by (symmetry; apply memb_spec; rewrite !in_app_iff; cbn; tauto).
      destruct (with_root_term t H1) as (a & b & Q1 & P1 & P2). destruct (with_root_term t2 H2) as (c & d & Q2 & P3 & P4).
      replace (A ++ ((43 :: minus (t_sign t2)) ++ norm_term t2) ++ [47] ++ bottom r)
        with (A ++ [43] ++ (minus (t_sign t2) ++ norm_term t2) ++ [47] ++ bottom r) by reflexivity.
      unfold scalar2, radicand2. rewrite ES. eapply rad_split_ok; eauto.
      * intros I. apply in_app_or in I as [I|I]; [apply minus_in in I; lia|]. apply norm_term_chars in I; auto. unfold ROOT in I. lia.
      * intros I. apply in_app_or in I as [I|I]; [apply minus_in in I; lia|]. apply norm_term_chars in I; auto. unfold ROOT in I. lia.
    + (* one term *)
      unfold B in *. cbn [app] in *.
      assert (TR : t_rad t <> None).
      { apply memb_spec in MR. apply in_app_or in MR as [I|[I|I]]; [apply CA in I; unfold ROOT in I; intuition lia|unfold ROOT in I; lia|contradiction]. }
      assert (NP : ~ In 43 (bottom r)).
      { unfold bottom. destruct (r_den r) as [[s0 ds]|]; [|cbn; lia]. destruct H3 as (_ & Hd & _ & H3). rewrite H3 by auto. cbn. apply text_not_in; auto. lia. }
      replace (memb 43 _) with false by (symmetry; apply memb_false; apply in_app3; auto; apply not_in_cons; auto; lia).
      change (s2l "/") with (47 :: []). rewrite str_replace_app by auto. change (47 :: bottom r) with ([47] ++ bottom r). rewrite str_replace_hit.
      rewrite str_replace_none by auto.
      destruct (with_root_term t H1) as (a & b & Q1 & P1 & P2). unfold scalar2, radicand2. rewrite ES.
      change ((s2l "+0" ++ [ROOT] ++ s2l "1/") ++ bottom r) with ([43] ++ (48 :: ROOT :: [49]) ++ [47] ++ bottom r).
      apply (rad_split_ok A (48 :: ROOT :: [49]) (bottom r) a b [48] [49]); auto; try reflexivity; cbn; unfold ROOT; intuition lia.
  - (* no root: a rational number *)
    apply memb_false in MR.
    assert (TR : t_rad t = None).
    { destruct (t_rad t) eqn:ET; auto. exfalso. apply MR. apply in_or_app. left. unfold A. apply in_or_app. right. apply norm_term_in_root; auto. congruence. }
    assert (ES : r_snd r = None).
    { destruct (r_snd r) as [t2|] eqn:ES; auto. exfalso. destruct H2 as (H2 & _ & [C|C]); [congruence|]. apply MR. apply in_or_app. right. apply in_or_app. left. unfold B.
      apply in_or_app. right. now apply norm_term_in_root. }
    right. split; auto. split; auto. unfold B in *. rewrite ES in *. cbn [app] in *.
    change (s2l "/") with (47 :: []).
    replace (str_replace [47] (ROOT :: s2l "1/") (s2l "0" ++ ROOT :: s2l "1+" ++ A ++ 47 :: bottom r))
      with ((48 :: ROOT :: [49]) ++ [43] ++ (A ++ [ROOT; 49]) ++ [47] ++ bottom r).
    2:{ change (s2l "0" ++ ROOT :: s2l "1+" ++ A ++ 47 :: bottom r) with ((48 :: ROOT :: [49; 43]) ++ A ++ [47] ++ bottom r).
        rewrite str_replace_app by (cbn; unfold ROOT; intuition lia). rewrite str_replace_app by auto. rewrite str_replace_hit, str_replace_none by auto.
        repeat rewrite <- app_assoc. reflexivity. }
    replace (memb 43 _) with true by (symmetry; apply memb_spec; rewrite !in_app_iff; cbn; tauto).
    destruct (with_root_term t H1) as (a & b & Q1 & P1 & P2).
    assert (R1 : radicand t = 1) by (unfold radicand; now rewrite TR). rewrite R1 in P2.
    assert (WR : with_root (A ++ [ROOT; 49]) = with_root A).
    { unfold with_root. replace (memb ROOT (A ++ [ROOT; 49])) with true by (symmetry; apply memb_spec; rewrite in_app_iff; cbn; tauto).
      replace (memb ROOT A) with false; auto. symmetry. apply memb_false. intros I. apply CA in I. unfold ROOT in I. intuition lia. }
    fold A in Q1. rewrite <- WR in Q1.
    apply (rad_split_ok (48 :: ROOT :: [49]) (A ++ [ROOT; 49]) (bottom r) [48] [49] a b); auto; try reflexivity;
      try (apply in_app3; auto); cbn; unfold ROOT; intuition lia.
Qed.

(** * Nibble fields *)
Lemma hex_check : forallb (fun v => match parse_int 16 (str_of_int v) with
    | Ok h => match to_bytes_be h 2 with Ok d => leqb d [v / 100; 16 * (v / 10 mod 10) + v mod 10] | _ => false end
    | _ => false end &&
  match parse_int 16 (str_of_int (10 * v)) with
    | Ok h => match to_bytes_be h 2 with Ok d => leqb d [16 * (v / 100) + v / 10 mod 10; 16 * (v mod 10)] | _ => false end
    | _ => false end) (map Z.of_nat (seq 0 1000)) = true.
Proof. vm_compute. reflexivity. Qed.
Lemma land240_check : forallb (fun c => Z.land c 240 =? 16 * (c / 16)) (map Z.of_nat (seq 0 256)) = true.
Proof. vm_compute. reflexivity. Qed.
Lemma bits48_check : forallb (fun c => forallb (fun t => match bits_set 4 8 t (Some [c]) with
    | ([], Ok d) => leqb d [16 * t + c mod 16] | _ => false end) (map Z.of_nat (seq 0 16))) (map Z.of_nat (seq 0 256)) = true.
Proof. vm_compute. reflexivity. Qed.
Lemma in_range v n : 0 <= v < Z.of_nat n -> In v (map Z.of_nat (seq 0 n)).
Proof. intros H. apply in_map_iff. exists (Z.to_nat v). split; [lia|]. apply in_seq. lia. Qed.
Lemma left_set_ok v c0 c1 : 0 <= v < 1000 -> is_byte c0 ->
  left_set v [c0; c1] = Ok [16 * (c0 / 16) + v / 100; 16 * (v / 10 mod 10) + v mod 10].
Proof.
  intros H C. pose proof hex_check as K. rewrite forallb_forall in K. specialize (K v (in_range v 1000 H)). apply andb_prop in K as [K _].
  pose proof land240_check as M. rewrite forallb_forall in M. specialize (M c0 (in_range c0 256 C)). apply Z.eqb_eq in M.
  unfold left_set. destruct (parse_int 16 (str_of_int v)) as [h|]; [|discriminate]. cbn [rbind].
  destruct (to_bytes_be h 2) as [d|]; [|discriminate]. cbn [rbind]. apply leqb_spec in K. subst d. rewrite M.
  replace (is_byteb _) with true; [f_equal; f_equal; lia|]. symmetry. apply is_byteb_spec. unfold is_byte in *. lia.
Qed.
Lemma right_set_ok v c0 c1 : 0 <= v < 1000 -> is_byte c1 ->
  right_set v [c0; c1] = Ok [16 * (v / 100) + v / 10 mod 10; 16 * (v mod 10) + c1 mod 16].
Proof.
  intros H C. pose proof hex_check as K. rewrite forallb_forall in K. specialize (K v (in_range v 1000 H)). apply andb_prop in K as [_ K].
  unfold right_set. destruct (parse_int 16 (str_of_int (10 * v))) as [h|]; [|discriminate]. cbn [rbind].
  destruct (to_bytes_be h 2) as [d|]; [|discriminate]. cbn [rbind]. apply leqb_spec in K. subst d.
  replace (is_byteb _) with true; [reflexivity|]. symmetry. apply is_byteb_spec. unfold is_byte in *. lia.
Qed.
Lemma bits48_ok t c : 0 <= t < 16 -> is_byte c -> bits_set 4 8 t (Some [c]) = ([], Ok [16 * t + c mod 16]).
Proof.
  intros H C. pose proof bits48_check as K. rewrite forallb_forall in K. specialize (K c (in_range c 256 C)).
  rewrite forallb_forall in K. specialize (K t (in_range t 16 H)).
  destruct (bits_set 4 8 t (Some [c])) as [[|w ws] [d|]]; try discriminate. apply leqb_spec in K. now subst.
Qed.
Section Nine.
Variables a0 a1 a2 a3 a4 a5 a6 a7 a8 : Z.
Hypothesis W : wf_bytes [a0; a1; a2; a3; a4; a5; a6; a7; a8].
Let b := Buf true [a0; a1; a2; a3; a4; a5; a6; a7; a8].
Ltac bytes9 := unfold wf_bytes in W; repeat match goal with H : Forall is_byte (_ :: _) |- _ => inversion H; subst; clear H end.
Lemma set_sign_type_ok t : 0 <= t < 16 ->
  set_sign_type t b = oret (Buf true [a0; 16 * t + a1 mod 16; a2; a3; a4; a5; a6; a7; a8]).
Proof.
  intros H. bytes9. unfold set_sign_type, b. change (view_get (real_view 1 2) _) with [a1]. now rewrite bits48_ok.
Qed.
Lemma set_denominator_ok v : 0 <= v < 1000 ->
  set_denominator v b = oret (Buf true [a0; 16 * (a1 / 16) + v / 100; 16 * (v / 10 mod 10) + v mod 10; a3; a4; a5; a6; a7; a8]).
Proof.
  intros H. bytes9. unfold set_denominator, set_left, b. change (view_get _ _) with [a1; a2]. now rewrite left_set_ok.
Qed.
Lemma set_right_scalar_ok v : 0 <= v < 1000 ->
  set_right_scalar v b = oret (Buf true [a0; a1; a2; 16 * (v / 100) + v / 10 mod 10; 16 * (v mod 10) + a4 mod 16; a5; a6; a7; a8]).
Proof.
  intros H. bytes9. unfold set_right_scalar, set_right, b. change (view_get _ _) with [a3; a4]. now rewrite right_set_ok.
Qed.
Lemma set_left_scalar_ok v : 0 <= v < 1000 ->
  set_left_scalar v b = oret (Buf true [a0; a1; a2; a3; 16 * (a4 / 16) + v / 100; 16 * (v / 10 mod 10) + v mod 10; a6; a7; a8]).
Proof.
  intros H. bytes9. unfold set_left_scalar, set_left, b. change (view_get _ _) with [a4; a5]. now rewrite left_set_ok.
Qed.
Lemma set_right_radicand_ok v : 0 <= v < 1000 ->
  set_right_radicand v b = oret (Buf true [a0; a1; a2; a3; a4; a5; 16 * (v / 100) + v / 10 mod 10; 16 * (v mod 10) + a7 mod 16; a8]).
Proof.
  intros H. bytes9. unfold set_right_radicand, set_right, b. change (view_get _ _) with [a6; a7]. now rewrite right_set_ok.
Qed.
Lemma set_left_radicand_ok v : 0 <= v < 1000 ->
  set_left_radicand v b = oret (Buf true [a0; a1; a2; a3; a4; a5; a6; 16 * (a7 / 16) + v / 100; 16 * (v / 10 mod 10) + v mod 10]).
Proof.
  intros H. bytes9. unfold set_left_radicand, set_left, b. change (view_get _ _) with [a7; a8]. now rewrite left_set_ok.
Qed.
Lemma get_fields :
  get_sign_type b = Ok (a1 / 16) /\
  get_denominator b = Ok ((a1 mod 16) * 100 + (10 * (a2 / 16) + a2 mod 16)) /\
  get_right_scalar b = Ok (10 * (10 * (a3 / 16) + a3 mod 16) + a4 / 16) /\
  get_left_scalar b = Ok ((a4 mod 16) * 100 + (10 * (a5 / 16) + a5 mod 16)) /\
  get_right_radicand b = Ok (10 * (10 * (a6 / 16) + a6 mod 16) + a7 / 16) /\
  get_left_radicand b = Ok ((a7 mod 16) * 100 + (10 * (a8 / 16) + a8 mod 16)).
Proof.
  split; [|repeat split].
  bytes9. unfold get_sign_type, b. change (view_get (real_view 1 2) _) with [a1]. rewrite bits_get_value by (auto; lia).
  cbn [section_get]. f_equal. change (2 ^ Z.of_nat 4) with 16. change (2 ^ Z.of_nat (8 - 4)) with 16.
  unfold is_byte in *. rewrite Z.mod_small; auto. lia.
Qed.
End Nine.

(** Storing all six components. *)
Definition rad_buf (a0 t d ls rs lr rr : Z) : bytes :=
  [a0; 16 * t + d / 100; 16 * (d / 10 mod 10) + d mod 10;
   16 * (rs / 100) + rs / 10 mod 10; 16 * (rs mod 10) + ls / 100; 16 * (ls / 10 mod 10) + ls mod 10;
   16 * (rr / 100) + rr / 10 mod 10; 16 * (rr mod 10) + lr / 100; 16 * (lr / 10 mod 10) + lr mod 10].
Lemma cons_eq (a b : Z) l m : a = b -> l = m -> a :: l = b :: m. Proof. now intros -> ->. Qed.
Ltac wf9 := unfold wf_bytes; repeat (apply Forall_cons; [unfold is_byte in *; lia|]); apply Forall_nil.
Ltac nine d H := do 10 (destruct d as [|? d]; try discriminate H).
Lemma rad_store l t d ls rs lr rr : length l = 9%nat -> wf_bytes l -> 0 <= t < 16 -> 0 <= d < 1000 -> 0 <= ls < 1000 ->
  0 <= rs < 1000 -> 0 <= lr < 1000 -> 0 <= rr < 1000 ->
  run_steps [set_sign_type t; set_denominator d; set_left_scalar ls; set_right_scalar rs;
             set_left_radicand lr; set_right_radicand rr] (Buf true l) = (Buf true (rad_buf (nth 0 l 0) t d ls rs lr rr), oret tt).
Proof.
  intros L W Ht Hd Hls Hrs Hlr Hrr. nine l L. clear L. cbn [nth].
  assert (W' := W). unfold wf_bytes in W'. repeat match goal with H : Forall is_byte (_ :: _) |- _ => inversion H; subst; clear H end.
  cbn [run_steps].
  rewrite set_sign_type_ok by (auto; wf9). cbn [oret].
  rewrite set_denominator_ok by (auto; wf9). cbn [oret].
  rewrite set_left_scalar_ok by (auto; wf9). cbn [oret].
  rewrite set_right_scalar_ok by (auto; wf9). cbn [oret].
  rewrite set_left_radicand_ok by (auto; wf9). cbn [oret].
  rewrite set_right_radicand_ok by (auto; wf9). cbn [oret app].
  unfold rad_buf. apply (f_equal (fun l => (Buf true l, oret tt))). repeat (apply cons_eq; [lia|]). reflexivity.
Qed.
Lemma rad_read a0 t d ls rs lr rr : is_byte a0 -> 0 <= t < 16 -> 0 <= d < 1000 -> 0 <= ls < 1000 ->
  0 <= rs < 1000 -> 0 <= lr < 1000 -> 0 <= rr < 1000 ->
  let b := Buf true (rad_buf a0 t d ls rs lr rr) in
  get_sign_type b = Ok t /\ get_denominator b = Ok d /\ get_left_scalar b = Ok ls /\ get_right_scalar b = Ok rs /\
  get_left_radicand b = Ok lr /\ get_right_radicand b = Ok rr.
Proof.
  intros H0 Ht Hd Hls Hrs Hlr Hrr. unfold rad_buf.
  match goal with |- context [Buf true [?a; ?b; ?c; ?d; ?e; ?f; ?g; ?h; ?i]] => pose proof (get_fields a b c d e f g h i) as G end.
  destruct G as (G1 & G2 & G3 & G4 & G5 & G6); [wf9|].
  repeat split; [rewrite G1|rewrite G2|rewrite G4|rewrite G3|rewrite G6|rewrite G5]; f_equal; lia.
Qed.
Lemma rad_finish_spec A B C D r : rad_wf r -> 0 <= B -> 0 <= D ->
  let E := denominator r in
  let '(ls, lr, rs, rr) := if B <? D then (C, D, A, B) else if B =? D then (A + C, B, 0, 0) else (A, B, C, D) in
  rad_finish A B C D (bottom r) =
  if (E =? 0) || (ls =? 0) then Err ValueError
  else Ok ((if E * ls <? 0 then if 0 <? E * rs then 1 else 3 else if E * rs <? 0 then 2 else 0),
           Z.abs E, Z.abs ls, Z.abs rs, lr, rr).
Proof.
  intros W HB HD E. unfold rad_finish. replace ((B <? 0) || (D <? 0)) with false by lia.
  rewrite (bottom_parse r W). fold E. cbn [rbind].
  assert (K : forall ls lr rs rr : Z,
    (if E =? 0 then Err ValueError else
     try t := (if py_sign (ls * py_sign E) =? 1 then Ok (if py_sign (rs * py_sign E) =? -1 then 2 else 0)
               else if py_sign (ls * py_sign E) =? -1 then Ok (if py_sign (rs * py_sign E) =? 1 then 1 else 3)
               else Err ValueError) in
     Ok (t, Z.abs E, Z.abs (ls * py_sign E), Z.abs (rs * py_sign E), lr, rr)) =
    if (E =? 0) || (ls =? 0) then Err ValueError
    else Ok ((if E * ls <? 0 then if 0 <? E * rs then 1 else 3 else if E * rs <? 0 then 2 else 0),
             Z.abs E, Z.abs ls, Z.abs rs, lr, rr)).
  { intros ls lr rs rr. destruct (Z.eqb_spec E 0) as [E0|E0]; auto. cbn [orb].
    destruct (Z.eqb_spec ls 0) as [L0|L0]; [rewrite L0; reflexivity|].
    assert (SE : py_sign E = Z.sgn E) by (unfold py_sign; destruct E; reflexivity).
    assert (PS : forall x, py_sign x = Z.sgn x) by (intros []; reflexivity).
    rewrite !PS, !Z.abs_mul, !Z.sgn_mul.
    assert (A1 : Z.abs (Z.sgn E) = 1) by lia. rewrite A1, !Z.mul_1_r.
    replace (E * ls <? 0) with (Z.sgn ls * Z.sgn (Z.sgn E) =? -1).
    2:{ destruct E, ls; try congruence; cbn; lia. }
    replace (E * rs <? 0) with (Z.sgn rs * Z.sgn (Z.sgn E) =? -1) by (destruct E, rs; try congruence; cbn; lia).
    replace (0 <? E * rs) with (Z.sgn rs * Z.sgn (Z.sgn E) =? 1) by (destruct E, rs; try congruence; cbn; lia).
    destruct E, ls; try congruence; destruct rs; reflexivity. }
  destruct (B <? D); [apply K|]. destruct (B =? D); apply K.
Qed.
Definition lead (A B C D : Z) : Z := if B <? D then C else if B =? D then A + C else A.
Lemma number_nonneg ds : Forall digit ds -> 0 <= number ds.
Proof.
  intros H. unfold number. assert (K : forall l a, Forall digit l -> 0 <= a -> 0 <= fold_left (fun v d => v * 10 + d) l a).
  { intros l. induction l as [|x l IH]; intros a Hl Ha; auto. inversion Hl; subst. cbn [fold_left]. apply IH; auto. unfold digit in *. lia. }
  apply K; auto. lia.
Qed.
Lemma radicand_nonneg t : term_wf t -> 0 <= radicand t.
Proof. intros (_ & _ & H). unfold radicand. destruct (t_rad t) as [[x ds]|]; [|lia]. apply number_nonneg, H. Qed.
Lemma radicand2_nonneg r : rad_wf r -> 0 <= radicand2 r.
Proof. intros (_ & H & _). unfold radicand2. destruct (r_snd r); [apply radicand_nonneg, H|lia]. Qed.
Lemma radical_parse_spec r s : rad_wf r -> without (spaces ++ s2l "()*") s = rad_text r ->
  radical_parse s = rad_finish (scalar (r_fst r)) (radicand (r_fst r)) (scalar2 r) (radicand2 r) (bottom r).
Proof.
  intros W E. destruct (radical_parse_value r s W E) as [H|(H1 & H2 & H)]; auto. rewrite H.
  unfold scalar2, radicand2, radicand. rewrite H1, H2. unfold rad_finish. cbn [Z.ltb Z.compare orb Z.eqb Pos.compare Pos.compare_cont Pos.eqb].
  now rewrite Z.add_0_l, Z.add_0_r.
Qed.
Lemma rad_text_nonempty r s : term_wf (r_fst r) -> without (spaces ++ s2l "()*") s = rad_text r -> s <> [].
Proof.
  intros H E ->. destruct H as (_ & _ & T). cbn in E. unfold rad_text, term_text in E.
  destruct (t_sign (r_fst r)); [|discriminate]. destruct (t_scal (r_fst r)); [|discriminate].
  destruct (t_rad (r_fst r)) as [[x ds]|]; [|congruence]. destruct T as ([->| ->] & _); discriminate.
Qed.
Lemma radical_load_spec r s l : rad_wf r -> without (spaces ++ s2l "()*") s = rad_text r -> length l = 9%nat -> wf_bytes l ->
  let A := scalar (r_fst r) in let B := radicand (r_fst r) in let C := scalar2 r in let D := radicand2 r in
  let E := denominator r in
  (E = 0 \/ lead A B C D = 0 -> radical_load s (Buf true l) = (Buf true l, oerr ValueError)) /\
  (E <> 0 -> lead A B C D <> 0 ->
   Z.abs A < 1000 -> B < 1000 -> Z.abs C < 1000 -> D < 1000 -> Z.abs E < 1000 -> (B = D -> Z.abs (A + C) < 1000) ->
   exists t d ls rs lr rr,
     radical_load s (Buf true l) = (Buf true (rad_buf (nth 0 l 0) t d ls rs lr rr), oret tt) /\
     0 <= t < 4 /\ 0 < d < 1000 /\ 0 < ls < 1000 /\ 0 <= rs < 1000 /\ 0 <= lr < 1000 /\ 0 <= rr < 1000 /\
     (rr < lr \/ rs = 0 /\ rr = 0) /\
     same_radical A B C D E (ls * (if Z.land t 1 =? 0 then 1 else -1)) lr (rs * (if Z.land t 2 =? 0 then 1 else -1)) rr d).
Proof.
  intros W T L WL A B C D E.
  assert (NE : s <> []) by (apply (rad_text_nonempty r); [apply W|exact T]).
  assert (HB : 0 <= B) by (apply radicand_nonneg, W). assert (HD : 0 <= D) by (now apply radicand2_nonneg).
  pose proof (rad_finish_spec A B C D r W HB HD) as F. cbv zeta in F. fold E in F.
  pose proof (radical_parse_spec r s W T) as P. fold A B C D in P.
  assert (RL : radical_load s (Buf true l) = match radical_parse s with
      | Err e => (Buf true l, ([], Err e))
      | Ok (t, d, ls, rs, lr, rr) =>
          run_steps [set_sign_type t; set_denominator d; set_left_scalar ls; set_right_scalar rs;
                     set_left_radicand lr; set_right_radicand rr] (Buf true l) end).
  { unfold radical_load. destruct s; [congruence|]. unfold oret at 1. destruct (radical_parse (z :: s)) as [[[[[[t d] ls] rs] lr] rr]|]; auto.
    destruct (run_steps _ _) as [b' [w x]]. reflexivity. }
  rewrite RL, P. clear RL P.
  set (q := if B <? D then (C, D, A, B) else if B =? D then (A + C, B, 0, 0) else (A, B, C, D)) in *.
  assert (Q : let '(ls, lr, rs, rr) := q in ls = lead A B C D /\ (forall f : Z -> Z, A * f B + C * f D = ls * f lr + rs * f rr) /\
     (rr < lr \/ rs = 0 /\ rr = 0) /\ 0 <= lr /\ 0 <= rr /\
     (Z.abs A < 1000 -> B < 1000 -> Z.abs C < 1000 -> D < 1000 -> (B = D -> Z.abs (A + C) < 1000) ->
      Z.abs ls < 1000 /\ Z.abs rs < 1000 /\ lr < 1000 /\ rr < 1000)).
  { unfold q, lead. destruct (Z.ltb_spec B D); [|destruct (Z.eqb_spec B D) as [e|e]].
    - repeat split; try lia; intros f; lia.
    - repeat split; try lia; intros f; rewrite <- e. lia.
    - repeat split; try lia. }
  clearbody q. destruct q as [[[ls lr] rs] rr]. destruct Q as (QL & QF & QO & QR & QR' & QB). rewrite F, <- QL. split.
  - intros H. replace ((E =? 0) || (ls =? 0)) with true by lia. reflexivity.
  - intros E0 L0 b1 b2 b3 b4 b5 b6. destruct (QB b1 b2 b3 b4 b6) as (c1 & c2 & c3 & c4).
    replace ((E =? 0) || (ls =? 0)) with false by lia.
    set (t := if E * ls <? 0 then if 0 <? E * rs then 1 else 3 else if E * rs <? 0 then 2 else 0).
    assert (Ht : 0 <= t < 4) by (unfold t; destruct (E * ls <? 0), (0 <? E * rs), (E * rs <? 0); lia).
    exists t, (Z.abs E), (Z.abs ls), (Z.abs rs), lr, rr.
    split; [apply rad_store; auto; lia|]. split; [exact Ht|]. do 5 (split; [lia|]). split; [lia|].
    intros f. rewrite QF.
    assert (S1 : Z.abs ls * (if Z.land t 1 =? 0 then 1 else -1) * E = ls * Z.abs E).
    { unfold t. destruct (Z.ltb_spec (E * ls) 0) as [h|h].
      - replace (Z.land _ 1 =? 0) with false by (destruct (0 <? E * rs); reflexivity). destruct (Z.lt_trichotomy E 0) as [k|[k|k]]; [|lia|]; nia.
      - replace (Z.land _ 1 =? 0) with true by (destruct (E * rs <? 0); reflexivity). destruct (Z.lt_trichotomy E 0) as [k|[k|k]]; [|lia|]; nia. }
    assert (S2 : Z.abs rs * (if Z.land t 2 =? 0 then 1 else -1) * E = rs * Z.abs E).
    { destruct (Z.eq_dec rs 0) as [z|z]; [rewrite z; reflexivity|].
      assert (N : E * rs <> 0) by (intros h; apply Z.mul_eq_0 in h; lia).
      replace (Z.land t 2 =? 0) with (0 <? E * rs).
      2:{ unfold t. destruct (E * ls <? 0); destruct (Z.ltb_spec 0 (E * rs)), (Z.ltb_spec (E * rs) 0); try reflexivity; lia. }
      destruct (Z.ltb_spec 0 (E * rs)); destruct (Z.lt_trichotomy E 0) as [k|[k|k]]; try lia; nia. }
    transitivity (ls * Z.abs E * f lr + rs * Z.abs E * f rr); [ring|]. rewrite <- S1, <- S2. ring.
Qed.

(** The forms the loader does not understand. *)
Lemma rad_front_form r s : rad_form r -> without (spaces ++ s2l "()*") s = rad_text r -> rad_front s =
  (minus (t_sign (r_fst r)) ++ norm_term (r_fst r)) ++
  match r_snd r with Some t => 43 :: minus (t_sign t) ++ norm_term t | None => [] end ++
  match r_den r with Some (s0, ds) => 47 :: plus_sign s0 ++ text_of ds | None => [] end.
Proof.
  intros W E. assert (W' := W). destruct W' as (H1 & H2 & H3).
  transitivity (lstrip (s2l "+") (norm_rad r)).
  { unfold rad_front. rewrite <- unspaced_squash. change (s2l "*") with [42]. change (s2l ")") with [41]. change (s2l "(") with [40]. rewrite !replace_del. unfold unspaced. rewrite !without_without.
    change (spaces ++ [40] ++ [41] ++ [42]) with (spaces ++ s2l "()*"). now rewrite E, swap_radical. }
  unfold norm_rad. rewrite <- app_assoc, lstrip_plus.
  2:{ apply H1. } 2:{ intros c q Q. destruct (norm_term (r_fst r)) as [|x y] eqn:Et; [now apply norm_term_nonempty in Et|]. injection Q as <- _. now apply (norm_term_head (r_fst r) x y). }
  rewrite <- app_assoc. do 2 f_equal. destruct (r_snd r) as [t|]; [|reflexivity]. destruct H2 as [H2 H2'].
  rewrite plus_minus; auto. apply H2.
Qed.
Lemma signed_term_chars t c : term_wf t -> In c (minus (t_sign t) ++ norm_term t) -> c = 45 \/ 48 <= c <= 57 \/ c = ROOT /\ t_rad t <> None.
Proof. intros W I. apply in_app_or in I as [I|I]; [apply minus_in in I; auto|apply norm_term_chars in I; auto]. Qed.
Lemma refuse_signed_below_root r s : rad_form r -> signed_below_root r -> without (spaces ++ s2l "()*") s = rad_text r ->
  radical_parse s = Err ValueError.
Proof.
  intros W (S & R & s0 & ds & ED & NS) E. rewrite radical_parse_split, (rad_front_form r s W E), S, ED. cbn [app].
  destruct W as (H1 & _ & H3). rewrite ED in H3. destruct H3 as (Hs & Hd & Nd).
  set (A := minus (t_sign (r_fst r)) ++ norm_term (r_fst r)).
  assert (CA : forall c, In c A -> c = 45 \/ 48 <= c <= 57 \/ c = ROOT) by (intros c I; apply signed_term_chars in I; tauto).
  rewrite plus_minus by auto. set (Q := (43 :: minus s0) ++ text_of ds).
  assert (CQ : forall c, In c Q -> c = 43 \/ c = 45 \/ 48 <= c <= 57).
  { intros c I. apply in_app_or in I as [[I|I]|I]; [auto|apply minus_in in I; auto|apply text_in in I; auto]. }
  replace (memb 46 _) with false.
  2:{ symmetry. apply memb_false. apply in_app3; [intros I; apply CA in I; unfold ROOT in I; lia|]. apply not_in_cons; [lia|]. intros I; apply CQ in I; lia. }
  unfold fix_den. replace (memb 47 _) with true by (symmetry; apply memb_spec; rewrite in_app_iff; cbn; tauto).
  unfold fix_root. replace (memb ROOT _) with true.
  2:{ symmetry. apply memb_spec. rewrite in_app_iff. left. unfold A. rewrite in_app_iff. right. now apply norm_term_in_root. }
  unfold fix_plus. replace (memb 43 _) with true by (symmetry; apply memb_spec; rewrite in_app_iff; right; right; left; reflexivity).
  unfold rad_split. rewrite split_on_app by (intros I; apply CA in I; unfold ROOT in I; lia).
  rewrite (split_on_none 47 Q) by (intros I; apply CQ in I; lia).
  now rewrite (split_on_none 43 A) by (intros I; apply CA in I; unfold ROOT in I; lia).
Qed.
Lemma refuse_rootless_sum r s : rad_form r -> rootless_sum r -> without (spaces ++ s2l "()*") s = rad_text r ->
  radical_parse s = Err ValueError.
Proof.
  intros W (t & S & R & R2) E. rewrite radical_parse_split, (rad_front_form r s W E), S.
  assert (W' := W). destruct W' as (H1 & H2 & H3). rewrite S in H2. destruct H2 as [H2 _].
  set (A := minus (t_sign (r_fst r)) ++ norm_term (r_fst r)). set (B := minus (t_sign t) ++ norm_term t).
  assert (CA : forall c, In c A -> c = 45 \/ 48 <= c <= 57) by (intros c I; apply signed_term_chars in I; tauto).
  assert (CB : forall c, In c B -> c = 45 \/ 48 <= c <= 57) by (intros c I; apply signed_term_chars in I; tauto).
  set (DEN := match r_den r with Some (s0, ds) => 47 :: plus_sign s0 ++ text_of ds | None => [] end).
  assert (CD : forall c, In c (bottom r) -> c = 43 \/ c = 45 \/ 48 <= c <= 57).
  { intros c I. unfold bottom in I. destruct (r_den r) as [[s0 ds]|]; [|cbn in I; lia]. destruct H3 as (_ & Hd & _).
    apply in_app_or in I as [I|I]; [apply plus_in in I; tauto|apply text_in in I; auto]. }
  assert (HD : DEN = [] /\ bottom r = [49] \/ DEN = 47 :: bottom r) by (unfold DEN, bottom; destruct (r_den r) as [[s0 ds]|]; auto).
  replace (A ++ (43 :: B) ++ DEN) with ((A ++ 43 :: B) ++ DEN) by (rewrite <- app_assoc; reflexivity).
  set (T := A ++ 43 :: B).
  assert (CT : forall c, In c T -> c = 43 \/ c = 45 \/ 48 <= c <= 57).
  { intros c I. apply in_app_or in I as [I|[I|I]]; [apply CA in I; auto|auto|apply CB in I; auto]. }
  assert (NT : ~ In 47 T) by (intros I; apply CT in I; lia). assert (NB : ~ In 47 (bottom r)) by (intros I; apply CD in I; lia).
  replace (memb 46 _) with false.
  2:{ symmetry. apply memb_false. apply in_app3; [intros I; apply CT in I; lia|]. destruct HD as [[-> _]| ->]; [intros []|]. apply not_in_cons; [lia|]. intros I; apply CD in I; lia. }
  replace (fix_den (T ++ DEN)) with (T ++ 47 :: bottom r).
  2:{ unfold fix_den. destruct HD as [[-> ->]| ->].
      - rewrite app_nil_r. now replace (memb 47 T) with false by (symmetry; now apply memb_false).
      - now replace (memb 47 _) with true by (symmetry; apply memb_spec; rewrite in_app_iff; cbn; tauto). }
  unfold fix_root. replace (memb ROOT _) with false.
  2:{ symmetry. apply memb_false. apply in_app3; [intros I; apply CT in I; unfold ROOT in I; lia|]. apply not_in_cons; [unfold ROOT; lia|]. intros I; apply CD in I; unfold ROOT in I; lia. }
  change (s2l "/") with (47 :: []).
  replace (str_replace [47] _ _) with (((48 :: ROOT :: [49]) ++ 43 :: A ++ 43 :: B ++ [ROOT; 49]) ++ 47 :: bottom r).
  2:{ change (s2l "0" ++ [ROOT] ++ s2l "1+" ++ T ++ 47 :: bottom r) with ((48 :: ROOT :: [49; 43]) ++ T ++ [47] ++ bottom r).
      rewrite str_replace_app by (cbn; unfold ROOT; intuition lia). rewrite str_replace_app by auto. rewrite str_replace_hit, str_replace_none by auto.
      unfold T. cbn [app]. repeat rewrite <- app_assoc. cbn [app]. repeat rewrite <- app_assoc. reflexivity. }
  unfold fix_plus. replace (memb 43 _) with true by (symmetry; apply memb_spec; rewrite !in_app_iff; cbn; tauto).
  unfold rad_split. rewrite split_on_app.
  2:{ apply in_app3; [cbn; unfold ROOT; intuition lia|]. apply not_in_cons; [lia|]. apply in_app3; [intros I; apply CA in I; lia|]. apply not_in_cons; [lia|].
      apply in_app3; [intros I; apply CB in I; lia|cbn; unfold ROOT; intuition lia]. }
  rewrite (split_on_none 47) by auto. rewrite split_on_app by (cbn; unfold ROOT; intuition lia).
  rewrite split_on_app by (intros I; apply CA in I; lia). rewrite split_on_none; [reflexivity|].
  apply in_app3; [intros I; apply CB in I; lia|cbn; unfold ROOT; intuition lia].
Qed.
Lemma radical_load_refused s b : s <> [] -> radical_parse s = Err ValueError -> radical_load s b = (b, oerr ValueError).
Proof. intros N P. unfold radical_load. destruct s; [congruence|]. rewrite P. reflexivity. Qed.
