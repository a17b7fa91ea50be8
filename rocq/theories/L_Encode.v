(** Lemmas about the trie and the encoder. *)
From Verif Require Import L_Base M_Data M_Flags M_Models M_Class M_Var M_Tok S_Tok L_Tok.

Section Trie.
Context {OS : Type}.
Notation token := (token OS).
Notation trie := (trie OS).

(** ** Dictionaries *)
Lemma dict_get_set {A} k k' (v : A) d : dict_get k (dict_set k' v d) = if k =? k' then Some v else dict_get k d.
Proof.
  induction d as [|[q a] d IH]; cbn [dict_set dict_get]; [reflexivity|].
  destruct (Z.eqb_spec k' q) as [->|N]; cbn [dict_get].
  - destruct (k =? q); reflexivity.
  - rewrite IH. destruct (Z.eqb_spec k q) as [->|M]; [|reflexivity]. now replace (q =? k') with false by lia.
Qed.

(** ** The token stored under a name *)
Fixpoint lookup (t : trie) (n : str) : option token :=
  match n with
  | [] => tr_tok t
  | c :: r => match dict_get c (tr_children t) with Some x => lookup x r | None => None end
  end.
Lemma lookup_empty n : lookup empty_trie n = None.
Proof. destruct n; reflexivity. Qed.
Lemma lookup_insert n : forall t k m, lookup (insert_name t n k) m = if leqb n m then Some k else lookup t m.
Proof.
  induction n as [|c n IH]; intros t k m.
  - destruct m; reflexivity.
  - destruct m as [|d m]; [reflexivity|]. cbn [insert_name lookup tr_children leqb]. rewrite dict_get_set, (Z.eqb_sym c d).
    destruct (Z.eqb_spec d c) as [->|N]; cbn [andb]; [|reflexivity]. rewrite IH.
    destruct (leqb n m); [reflexivity|]. destruct (dict_get c (tr_children t)); [reflexivity|]. apply lookup_empty.
Qed.
(** The owner of a name in a list of insertions. *)
Definition owner (ps : list (str * token)) (n : str) : option token :=
  fold_left (fun o p => if leqb (fst p) n then Some (snd p) else o) ps None.
Lemma owner_app a b n : owner (a ++ b) n = match owner b n with Some k => Some k | None => owner a n end.
Proof.
  unfold owner. rewrite fold_left_app. assert (G : forall x, fold_left (fun o p => if leqb (fst p) n then Some (snd p) else o) b x =
    match fold_left (fun o p => if leqb (fst p) n then Some (snd p) else o) b None with Some k => Some k | None => x end); [|apply G].
  induction b as [|p b IH]; intros x; [reflexivity|]. cbn [fold_left].
  match goal with |- context [if ?x then _ else _] => destruct x end; [|apply IH].
  rewrite IH. match goal with |- context [fold_left ?f b None] => destruct (fold_left f b None) end; reflexivity.
Qed.
Lemma owner_none b n : owner b n = None <-> forall k, ~ In (n, k) b.
Proof.
  induction b as [|[m k] b IH] using rev_ind; [split; [intros _ k []|reflexivity]|]. rewrite owner_app.
  unfold owner at 1. cbn [fold_left fst snd]. destruct (leqb m n) eqn:E.
  - split; [discriminate|]. intros H. apply leqb_spec in E. subst m. exfalso. apply (H k). apply in_or_app. right. now left.
  - rewrite IH. split; intros H q I; [|apply (H q), in_or_app; now left]. apply in_app_or in I as [I|[I|[]]]; [now apply (H q)|].
    injection I as -> _. now rewrite leqb_refl in E.
Qed.
Lemma named_owner ps n k : named ps n k <-> owner ps n = Some k.
Proof.
  split.
  - intros (a & b & -> & H). rewrite owner_app. change ((n, k) :: b) with ([(n, k)] ++ b). rewrite owner_app.
    replace (owner b n) with (@None token) by (symmetry; now apply owner_none). unfold owner at 1. cbn [fold_left fst snd]. now rewrite leqb_refl.
  - induction ps as [|[m q] ps IH] using rev_ind; [discriminate|]. rewrite owner_app. unfold owner at 1. cbn [fold_left fst snd].
    destruct (leqb m n) eqn:E.
    + intros H. injection H as ->. apply leqb_spec in E. subst m. exists ps, []. split; [reflexivity|intros ? []].
    + intros H. destruct (IH H) as (a & b & -> & N). exists a, (b ++ [(m, q)]). rewrite <- app_assoc. split; [reflexivity|].
      intros k' I. apply in_app_or in I as [I|[I|[]]]; [now apply (N k')|]. injection I as -> _. now rewrite leqb_refl in E.
Qed.
Lemma lookup_insert_all ps t n : lookup (fold_left (fun (t : trie) p => insert_name t (fst p) (snd p)) ps t) n =
  match owner ps n with Some k => Some k | None => lookup t n end.
Proof.
  revert t. induction ps as [|[m k] ps IH] using rev_ind; intros t; [reflexivity|].
  rewrite fold_left_app, owner_app. cbn [fold_left fst snd]. rewrite lookup_insert. unfold owner at 1. cbn [fold_left fst snd].
  destruct (leqb m n); [reflexivity|]. apply IH.
Qed.
Lemma from_tokens_pairs ks : from_tokens ks = fold_left (fun (t : trie) p => insert_name t (fst p) (snd p)) (pairs_of ks) empty_trie.
Proof.
  unfold from_tokens, pairs_of. generalize (@empty_trie OS). induction ks as [|k ks IH]; intros t; [reflexivity|].
  cbn [fold_left flat_map]. rewrite fold_left_app, <- IH. f_equal. unfold insert. generalize (t_names k). intros l. clear.
  revert t. induction l as [|n l IH]; intros t; [reflexivity|]. cbn [fold_left map fst snd]. apply IH.
Qed.
Lemma lookup_from ks n : lookup (from_tokens ks) n = owner (pairs_of ks) n.
Proof. rewrite from_tokens_pairs, lookup_insert_all, lookup_empty. now destruct (owner _ n). Qed.

(** ** match *)
Definition hits (f : str -> option token) (s : str) (n : nat) : list (token * str) :=
  match f (firstn n s) with Some k => [(k, skipn n s)] | None => [] end.
Lemma trie_match_spec s : forall t, trie_match t s = flat_map (hits (lookup t) s) (rev (seq 0 (S (length s)))).
Proof.
  induction s as [|c s IH]; intros t.
  - cbn. unfold hits. cbn. destruct (tr_tok t); reflexivity.
  - cbn [trie_match length]. rewrite <- cons_seq. cbn [rev]. rewrite flat_map_app.
    assert (Z0 : flat_map (hits (lookup t) (c :: s)) [0%nat] = match tr_tok t with Some k => [(k, c :: s)] | None => [] end)
      by (cbn [flat_map hits]; unfold hits; cbn [firstn lookup skipn]; destruct (tr_tok t); reflexivity). rewrite Z0. f_equal.
    rewrite <- seq_shift, <- map_rev, flat_map_concat_map, map_map, <- flat_map_concat_map.
    destruct (dict_get c (tr_children t)) as [x|] eqn:E.
    + rewrite IH. apply flat_map_ext. intros n. unfold hits. cbn [firstn lookup skipn]. now rewrite E.
    + symmetry. assert (G : forall l, flat_map (fun n => hits (lookup t) (c :: s) (S n)) l = []); [|apply G].
      induction l as [|n l IHl]; [reflexivity|]. cbn [flat_map]. rewrite IHl, app_nil_r. unfold hits. cbn [firstn lookup]. now rewrite E.
Qed.
End Trie.

(** ** The choice among the matches *)
Section Choice.
Context {OS : Type}.
Variable os_gt : OS -> OS -> bool.
Variable INITIAL illegal_since : OS.
Notation token := (token OS).
Notation illegal := (illegal OS illegal_since).
Notation munch := (munch OS illegal_since).
Notation encode_loop := (encode_loop OS os_gt illegal_since).
Notation py_max := (py_max OS os_gt).
Variable ks : list token.
Notation ps := (pairs_of ks).
Notation tr := (from_tokens ks).

Definition lens (s : str) : list nat :=
  filter (fun n => match owner ps (firstn n s) with Some _ => true | None => false end) (rev (seq 0 (S (length s)))).
Definition hit (s : str) (n : nat) (p : token * str) : Prop := owner ps (firstn n s) = Some (fst p) /\ snd p = skipn n s.
Lemma match_hits s : Forall2 (hit s) (lens s) (trie_match tr s).
Proof.
  rewrite trie_match_spec. unfold lens. generalize (rev (seq 0 (S (length s)))). intros l.
  induction l as [|n l IH]; [constructor|]. cbn [filter flat_map]. unfold hits at 1. rewrite lookup_from.
  destruct (owner ps (firstn n s)) as [k|] eqn:E; [|exact IH]. cbn [app]. constructor; [split; [exact E|reflexivity]|exact IH].
Qed.
Lemma lens_in s n : In n (lens s) <-> name_len ps s n.
Proof.
  unfold lens, name_len. rewrite filter_In, <- in_rev, in_seq. split.
  - intros (A & B). split; [lia|]. destruct (owner ps (firstn n s)) as [k|] eqn:E; [|discriminate]. exists k. now apply named_owner.
  - intros (A & k & B). apply named_owner in B. rewrite B. split; [lia|reflexivity].
Qed.
Fixpoint decr (l : list nat) : Prop :=
  match l with [] => True | a :: r => Forall (fun b => (b < a)%nat) r /\ decr r end.
Lemma decr_filter f l : decr l -> decr (filter f l).
Proof.
  induction l as [|a l IH]; [auto|]. intros (A & B). cbn [filter]. destruct (f a); [|auto]. split; [|auto].
  apply Forall_forall. intros x I. apply filter_In in I as (I & _). rewrite Forall_forall in A. auto.
Qed.
Lemma decr_seq n : decr (rev (seq 0 n)).
Proof.
  induction n as [|n IH]; [exact I|]. rewrite seq_S, rev_app_distr. cbn [rev app plus]. split; [|exact IH].
  apply Forall_forall. intros x H. apply in_rev, in_seq in H. lia.
Qed.
Lemma lens_decr s : decr (lens s).
Proof. apply decr_filter, decr_seq. Qed.

Definition narrow {A} (punct : bool) (l : list A) : list A := if punct && (1 <? zlen l) then removelast l else l.
Definition pick {A} (mx : bool) (l : list A) : option A := if mx then hd_error l else nth_error (rev l) 0.
Lemma Forall2_removelast {A B} (R : A -> B -> Prop) l m : Forall2 R l m -> Forall2 R (removelast l) (removelast m).
Proof.
  induction 1 as [|a b l m H F IH]; [constructor|]. cbn [removelast]. destruct F; [constructor|]. constructor; auto.
Qed.
Lemma Forall2_rev {A B} (R : A -> B -> Prop) l m : Forall2 R l m -> Forall2 R (rev l) (rev m).
Proof. induction 1 as [|a b l m H F IH]; [constructor|]. cbn [rev]. apply Forall2_app; auto. Qed.
Lemma Forall2_zlen {A B} (R : A -> B -> Prop) l m : Forall2 R l m -> zlen l = zlen m.
Proof. unfold zlen. induction 1 as [|a b l m H F IH]; [reflexivity|]. cbn [length]. lia. Qed.
Lemma pick_narrow_hit {A B} (R : A -> B -> Prop) p mx l m : Forall2 R l m ->
  match pick mx (narrow p l), pick mx (narrow p m) with
  | Some a, Some b => R a b | None, None => True | _, _ => False end.
Proof.
  intros F. assert (G : Forall2 R (narrow p l) (narrow p m)).
  { unfold narrow. rewrite (Forall2_zlen R l m F). destruct (p && _); [now apply Forall2_removelast|exact F]. }
  unfold pick. destruct mx.
  - destruct G; [exact I|assumption].
  - apply Forall2_rev in G. destruct G; [exact I|assumption].
Qed.
Lemma pick_none {A} p mx (l : list A) : pick mx (narrow p l) = None <-> l = [].
Proof.
  split; [|intros ->; unfold narrow; cbn; rewrite andb_false_r; destruct mx; reflexivity].
  intros H. assert (N : narrow p l = []).
  { unfold pick in H. destruct mx; [destruct (narrow p l); [reflexivity|discriminate]|].
    destruct (rev (narrow p l)) eqn:E; [|discriminate]. rewrite <- (rev_involutive (narrow p l)), E. reflexivity. }
  unfold narrow in N. destruct (p && (1 <? zlen l)) eqn:C; [|exact N].
  destruct l as [|a [|b l]]; [reflexivity| |discriminate N]. apply andb_true_iff in C as (_ & C). discriminate C.
Qed.
Lemma hd_last {A} (l : list A) a : nth_error (rev (a :: l)) 0 = Some (last (a :: l) a).
Proof.
  destruct (@exists_last A (a :: l)) as (m & x & E); [discriminate|]. rewrite E, rev_app_distr, last_snoc. reflexivity.
Qed.
Lemma last_any {A} (l : list A) a d e : last (a :: l) d = last (a :: l) e.
Proof. revert a. induction l as [|c l IH]; intros a; [reflexivity|]. change (last (c :: l) d = last (c :: l) e). apply IH. Qed.
Lemma last_in {A} (l : list A) a d : In (last (a :: l) d) (a :: l).
Proof. revert a. induction l as [|c l IH]; intros a; [now left|]. right. apply IH. Qed.
Lemma decr_last l a : decr (a :: l) -> Forall (fun x => (last (a :: l) a <= x)%nat) (a :: l).
Proof.
  revert a. induction l as [|b l IH]; intros a (A & B); [constructor; [reflexivity|constructor]|].
  change (last (a :: b :: l) a) with (last (b :: l) a).
  rewrite (last_any l b a b). specialize (IH b B). constructor; [|exact IH]. inversion A; subst. inversion IH; subst. lia.
Qed.
Lemma decr_removelast l : decr l -> decr (removelast l).
Proof.
  induction l as [|a l IH]; [auto|]. intros (A & B). cbn [removelast]. destruct l as [|b l]; [exact I|]. split; [|auto].
  apply Forall_forall. intros x I. rewrite Forall_forall in A. apply A. clear -I.
  assert (G : forall (m : list nat) y, In y (removelast m) -> In y m); [|now apply G].
  induction m as [|c m IH]; [auto|]. intros y H. cbn [removelast] in H. destruct m; [destruct H|]. destruct H as [H|H]; [now left|right; auto].
Qed.

Lemma pick_longest s p n : pick true (narrow p (lens s)) = Some n -> longest ps s n.
Proof.
  intros H. pose proof (lens_decr s) as D. assert (E : hd_error (lens s) = Some n).
  { unfold pick, narrow in H. destruct (p && _); [|exact H]. destruct (lens s) as [|a [|b l]]; [exact H|discriminate H|exact H]. }
  destruct (lens s) as [|a l] eqn:L; [discriminate E|]. injection E as <-. split; [apply lens_in; rewrite L; now left|].
  intros m M. apply lens_in in M. rewrite L in M. destruct M as [<-|M]; [lia|]. destruct D as (D & _). rewrite Forall_forall in D. apply D in M. lia.
Qed.
Lemma pick_short s n : pick false (narrow (is_punct (hd 0 s)) (lens s)) = Some n -> short_glyph ps s n.
Proof.
  intros H. pose proof (lens_decr s) as D. unfold short_glyph, pick, narrow in *. destruct (is_punct (hd 0 s)); cbn [andb] in H.
  - destruct (1 <? zlen (lens s)) eqn:C.
    + right. destruct (lens s) as [|a l] eqn:L; [discriminate H|].
      destruct (@exists_last nat (a :: l)) as (m & x & E); [discriminate|]. rewrite E, removelast_last in H.
      destruct m as [|b m]; [rewrite E in C; discriminate C|]. rewrite hd_last in H. injection H as <-.
      assert (Dm : decr (b :: m)) by (rewrite <- (removelast_last (b :: m) x), <- E; now apply decr_removelast).
      assert (X : forall y, In y (b :: m) -> (x < y)%nat).
      { rewrite E in D. clear -D. induction (b :: m) as [|c q IH]; [intros y []|]. destruct D as (D1 & D2).
        intros y [<-|I]; [rewrite Forall_forall in D1; apply D1, in_or_app; right; now left|auto]. }
      pose proof (decr_last m b Dm) as LM. set (n := last (b :: m) b) in *.
      assert (In n (b :: m)) by apply last_in.
      assert (IN : forall y, name_len ps s y <-> In y (b :: m) \/ y = x).
      { intros y. rewrite <- lens_in, L, E, in_app_iff. cbn [In]. firstorder. }
      rewrite Forall_forall in LM. exists x. split; [|split; [|split]].
      * split; [apply IN; now right|]. intros y Y. apply IN in Y as [Y| ->]; [apply X in Y; lia|lia].
      * apply X. assumption.
      * apply IN. now left.
      * intros y Y. apply IN in Y as [Y| ->]; [right; now apply LM|now left].
    + left. destruct (lens s) as [|a [|b l]] eqn:L; [discriminate H| |unfold zlen in C; cbn in C; lia]. injection H as <-.
      assert (IN : forall y, name_len ps s y <-> y = a) by (intros y; rewrite <- lens_in, L; cbn; firstorder).
      split; [split; [now apply IN|intros y Y; apply IN in Y; lia]|intros y Y; now apply IN].
  - destruct (lens s) as [|a l] eqn:L; [discriminate H|]. rewrite hd_last in H. injection H as <-.
    pose proof (decr_last l a D) as LM. rewrite Forall_forall in LM. split; [|intros y Y; apply LM; rewrite <- L; now apply lens_in].
    apply lens_in. rewrite L. apply last_in.
Qed.
Lemma longest_unique s n m : longest ps s n -> longest ps s m -> n = m.
Proof. intros (A & B) (C & D). apply B in C. apply D in A. lia. Qed.
Lemma short_unique s n m : short_glyph ps s n -> short_glyph ps s m -> n = m.
Proof.
  unfold short_glyph, shortest. destruct (is_punct (hd 0 s)).
  - intros [((A & B) & C)|(x & (A & B) & C & D & E)] [((A' & B') & C')|(x' & (A' & B') & C' & D' & E')].
    + symmetry. now apply C.
    + apply C in A'. apply C in D'. lia.
    + apply C' in A. apply C' in D. lia.
    + assert (x = x') by (apply B in A'; apply B' in A; lia). subst x'.
      apply E in D'. apply E' in D. lia.
  - intros (A & B) (C & D). apply B in C. apply D in A. lia.
Qed.

(** ** One step *)
Definition ctx_of (st : state) (b : bytes) : list state :=
  if match max_length (fst st) with Some n => snd st =? n | None => false end then [] else next st b.
Lemma munch_literal st s n : literal_len s = Some n ->
  munch st tr s = (try b := fromhex (lstrip_ux (firstn n s)) in Ok (illegal b, skipn n s, next st (t_bits (illegal b)))).
Proof. intros H. unfold M_Tok.munch. rewrite H. reflexivity. Qed.
Lemma munch_names st s : literal_len s = None ->
  match pick (munches_max (fst st)) (narrow (is_punct (hd 0 s)) (lens s)) with
  | Some n => exists k, owner ps (firstn n s) = Some k /\ munch st tr s = Ok (k, skipn n s, ctx_of st (t_bits k))
  | None => munch st tr s = Err ValueError
  end.
Proof.
  intros H. unfold M_Tok.munch. rewrite H. pose proof (match_hits s) as F.
  pose proof (pick_narrow_hit (hit s) (is_punct (hd 0 s)) (munches_max (fst st)) _ _ F) as P.
  destruct (pick (munches_max (fst st)) (narrow (is_punct (hd 0 s)) (lens s))) as [n|] eqn:E.
  - destruct (trie_match tr s) as [|p0 rest] eqn:T.
    { exfalso. unfold pick, narrow in P. cbn [zlen length] in P. rewrite andb_false_r in P. destruct (munches_max (fst st)); exact P. }
    destruct (pick (munches_max (fst st)) (narrow (is_punct (hd 0 s)) (p0 :: rest))) as [(k, r)|] eqn:Q; [|destruct P].
    destruct P as (P1 & P2). cbn [fst snd] in P1, P2. exists k. split; [exact P1|].
    unfold pick, narrow in Q. rewrite Q. unfold ctx_of. subst r. destruct (match max_length (fst st) with Some n0 => snd st =? n0 | None => false end); reflexivity.
  - apply pick_none in E. rewrite E in F. inversion F. reflexivity.
Qed.
Lemma literal_len_none s : literal_len s = None <-> ~ starts_literal s.
Proof.
  unfold literal_len, starts_literal. destruct s as [|a [|b s]].
  - split; [intros _ [H|H]; discriminate H|reflexivity].
  - cbn -[Z.eqb]. rewrite !andb_false_r. split; [intros _ [H|H]; discriminate H|reflexivity].
  - cbn -[Z.eqb]. rewrite !andb_true_r.
    destruct (92 =? a) eqn:A; destruct (120 =? b) eqn:B; destruct (117 =? b) eqn:C; cbn -[Z.eqb]; split; try discriminate; intros H; try reflexivity.
    all: try (exfalso; apply H; left; f_equal; [lia|f_equal; lia]); try (exfalso; apply H; right; f_equal; [lia|f_equal; lia]).
    all: intros [G|G]; injection G as -> ->; lia.
Qed.
Lemma literal_len_some s n : literal_len s = Some n -> literal s (firstn n s) /\ s = firstn n s ++ skipn n s /\ (0 < length (firstn n s))%nat /\
  (forall p r, literal s p -> s = p ++ r -> p = firstn n s /\ r = skipn n s).
Proof.
  intros H. assert (G : (firstn 2 s = [92; 120] /\ n = 4%nat) \/ (firstn 2 s = [92; 117] /\ n = 6%nat)).
  { unfold literal_len in H. destruct s as [|a [|b s]]; cbn -[Z.eqb] in H; rewrite ?andb_false_r in H; try discriminate H.
    rewrite !andb_true_r in H. destruct (92 =? a) eqn:A; cbn -[Z.eqb] in H; [|discriminate H].
    destruct (120 =? b) eqn:B; [left|destruct (117 =? b) eqn:C; [right|discriminate H]]; injection H as <-; split; try reflexivity; cbn; f_equal; try lia; f_equal; lia. }
  assert (L : (2 <= length s)%nat).
  { destruct s as [|a [|b s]]; destruct G as [(G & _)|(G & _)]; try discriminate G; cbn; lia. }
  assert (E : s = firstn n s ++ skipn n s) by (symmetry; apply firstn_skipn).
  assert (K : (length (firstn n s) = n \/ (length (firstn n s) < n)%nat /\ skipn n s = [])).
  { rewrite firstn_length. destruct (Nat.le_gt_cases n (length s)); [left; lia|right; split; [lia|apply skipn_all2; lia]]. }
  split; [|split; [exact E|split]].
  - exists (skipn n s). split; [exact E|]. destruct G as [(G & ->)|(G & ->)]; [left|right]; (split; [exact G|exact K]).
  - rewrite firstn_length. destruct G as [(_ & ->)|(_ & ->)]; lia.
  - intros p r (r' & E1 & D) E2. assert (r' = r) by (rewrite E1 in E2; now apply app_inv_head in E2). subst r'.
    assert (X : (length p = n \/ (length p < n)%nat /\ r = [])).
    { destruct G as [(G & ->)|(G & ->)]; destruct D as [(D1 & D2)|(D1 & D2)]; try exact D2; rewrite G in D1; discriminate D1. }
    rewrite E2. destruct X as [<-|(X & ->)].
    + rewrite firstn_app, Nat.sub_diag, firstn_all, firstn_O, app_nil_r, skipn_app, Nat.sub_diag, skipn_all. split; reflexivity.
    + rewrite app_nil_r. rewrite firstn_all2 by lia. rewrite skipn_all2 by lia. split; reflexivity.
Qed.

(** ** Every result is a cut of the text *)
Lemma loop_cut fuel stack s acc since res sn : encode_loop fuel tr stack s acc since = Some (EOk res sn) ->
  exists zs, res = rev acc ++ zs /\ cut illegal ps s zs /\ sn = fold_left (fun m k => py_max (t_since k) m) zs since.
Proof.
  revert stack s acc since. induction fuel as [|fuel IH]; intros stack s acc since; cbn [M_Tok.encode_loop].
  - destruct s; [|discriminate]. intros H. injection H as <- <-. exists []. rewrite app_nil_r. repeat split. constructor.
  - destruct s as [|c s']; [intros H; injection H as <- <-; exists []; rewrite app_nil_r; repeat split; constructor|].
    set (s := c :: s') in *. destruct stack as [|st stack]; [discriminate|].
    destruct (literal_len s) as [n|] eqn:L.
    + rewrite (munch_literal st s n L). destruct (fromhex (lstrip_ux (firstn n s))) as [b|x] eqn:FH.
      2:{ cbn. destruct x; discriminate. }
      cbn [rbind]. intros H. apply IH in H as (zs & -> & C & ->). apply literal_len_some in L as (L1 & L2 & _).
      exists (illegal b :: zs). split; [cbn [rev]; rewrite <- app_assoc; reflexivity|]. split; [|reflexivity].
      eapply cut_literal; eauto.
    + pose proof (munch_names st s L) as M. destruct (pick _ _) as [n|] eqn:P.
      * destruct M as (k & O & ->). intros H. apply IH in H as (zs & -> & C & ->). exists (k :: zs).
        split; [cbn [rev]; rewrite <- app_assoc; reflexivity|]. split; [|reflexivity].
        eapply cut_name; [now apply literal_len_none|symmetry; apply (firstn_skipn n)|now apply named_owner|exact C].
      * rewrite M. discriminate.
Qed.

(** ** Termination *)
Lemma no_empty_owner : no_empty_name ks -> owner ps [] = None.
Proof.
  intros H. destruct (owner ps []) as [k|] eqn:E; [|reflexivity]. exfalso. apply named_owner in E as (a & b & E & _).
  assert (I : In ([], k) ps) by (rewrite E; apply in_or_app; right; now left).
  unfold pairs_of in I. apply in_flat_map in I as (k' & I1 & I2). apply in_map_iff in I2 as (n & I2 & I3). injection I2 as -> ->. now apply (H k).
Qed.
Lemma munch_shrinks st s k r ctx : no_empty_name ks -> s <> [] -> munch st tr s = Ok (k, r, ctx) -> (length r < length s)%nat.
Proof.
  intros NE N. destruct (literal_len s) as [n|] eqn:L.
  - rewrite (munch_literal st s n L). destruct (fromhex _) as [b|x]; [|discriminate]. cbn [rbind]. intros H. injection H as _ <- _.
    apply literal_len_some in L as (_ & L2 & L3 & _). rewrite L2 at 2. rewrite app_length. lia.
  - pose proof (munch_names st s L) as M. destruct (pick _ _) as [n|] eqn:P; [|rewrite M; discriminate].
    destruct M as (k' & O & ->). intros H. injection H as _ <- _. rewrite skipn_length.
    destruct n as [|n]; [cbn [firstn] in O; rewrite no_empty_owner in O by assumption; discriminate|].
    destruct s; [contradiction|]. cbn [length]. lia.
Qed.
Lemma loop_terminates fuel stack s acc since : no_empty_name ks -> (length s <= fuel)%nat -> encode_loop fuel tr stack s acc since <> None.
Proof.
  intros NE. revert stack s acc since. induction fuel as [|fuel IH]; intros stack s acc since L; cbn [M_Tok.encode_loop].
  - destruct s; [discriminate|cbn in L; lia].
  - destruct s as [|c s']; [discriminate|]. set (s := c :: s') in *. destruct stack as [|st stack]; [discriminate|].
    destruct (munch st tr s) as [((k, r), ctx)|x] eqn:M; [|destruct x; discriminate].
    apply IH. apply munch_shrinks in M; [lia|assumption|discriminate].
Qed.

(** ** The stack *)
Definition is_base (k : kind) : bool := match k with MaxMode | MinMode | SmartMode => true | _ => false end.
Definition good (b : kind) (stack : list state) : Prop :=
  is_base b = true /\
  exists j, stack = [(b, j)] \/ exists st, stack = [st; (b, j)] /\ is_base (fst st) = false.
Lemma good_next b st stack bs : good b (st :: stack) -> good b (rev (ctx_of st bs) ++ stack) /\ good b (rev (next st bs) ++ stack).
Proof.
  intros (B & j & [H|(st' & H & N)]); injection H as -> ->.
  - split; [unfold ctx_of; cbn [fst snd]|]; (split; [exact B|]); destruct b; try discriminate B; cbn [max_length];
      unfold next; cbn [fst snd];
      repeat match goal with |- context [if ?c then _ else _] => destruct c end; cbn [rev app];
      eexists; first [left; reflexivity|right; eexists; split; [reflexivity|reflexivity]].
  - assert (G : forall bs', good b (rev (next st' bs') ++ [(b, j)])).
    { intros bs'. split; [exact B|]. exists j. destruct st' as (k, i). destruct k; try discriminate N;
      unfold next, line_next; cbn [fst snd];
      repeat match goal with |- context [if ?c then _ else _] => destruct c end; cbn [rev app];
      first [left; reflexivity|right; eexists; split; [reflexivity|reflexivity]]. }
    split; [|apply G]. unfold ctx_of. destruct (match max_length (fst st') with Some n => snd st' =? n | None => false end); [|apply G].
    split; [exact B|]. exists j. left. reflexivity.
Qed.
Lemma munch_ctx st s k r ctx : munch st tr s = Ok (k, r, ctx) -> exists b, ctx = ctx_of st b \/ ctx = next st b.
Proof.
  destruct (literal_len s) as [n|] eqn:L.
  - rewrite (munch_literal st s n L). destruct (fromhex _) as [b|x]; [|discriminate]. cbn [rbind]. intros H. injection H as _ _ <-. eauto.
  - pose proof (munch_names st s L) as M. destruct (pick _ _) as [n|] eqn:P; [|rewrite M; discriminate].
    destruct M as (k' & O & ->). intros H. injection H as _ _ <-. eauto.
Qed.
Lemma fromhex_err l x : fromhex l = Err x -> x = ValueError.
Proof.
  remember (length l) as n eqn:E. assert (H : (length l <= n)%nat) by lia. clear E. revert l H x. induction n as [|n IH]; intros l H x.
  - destruct l; [discriminate|cbn in H; lia].
  - destruct l as [|a l]; [discriminate|]. cbn [fromhex]. destruct (is_ws a); [apply IH; cbn in H; lia|].
    destruct l as [|b l]; [intros G; now injection G as <-|]. destruct (hex_val a); [|intros G; now injection G as <-].
    destruct (hex_val b); [|intros G; now injection G as <-]. destruct (fromhex l) eqn:F; [discriminate|]. cbn [rbind]. intros G. injection G as <-.
    eapply IH; [|exact F]. cbn in H. lia.
Qed.
Lemma munch_err st s x : munch st tr s = Err x -> x = ValueError.
Proof.
  destruct (literal_len s) as [n|] eqn:L.
  - rewrite (munch_literal st s n L). destruct (fromhex _) as [b|y] eqn:F; [discriminate|]. cbn [rbind]. intros H. injection H as <-. now apply fromhex_err in F.
  - pose proof (munch_names st s L) as M. destruct (pick _ _) as [n|] eqn:P.
    + destruct M as (k' & O & ->). discriminate.
    + rewrite M. intros H. now injection H as <-.
Qed.
Lemma loop_no_stack fuel b stack s acc since rest : good b stack -> encode_loop fuel tr stack s acc since <> Some (EStack rest).
Proof.
  revert stack s acc since. induction fuel as [|fuel IH]; intros stack s acc since G; cbn [M_Tok.encode_loop].
  - destruct s; discriminate.
  - destruct s as [|c s']; [discriminate|]. set (s := c :: s') in *. destruct stack as [|st stack].
    { destruct G as (_ & j & [G|(st & G & _)]); discriminate G. }
    destruct (munch st tr s) as [((k, r), ctx)|x] eqn:M.
    + apply IH. apply munch_ctx in M as (bs & [-> | ->]); apply (good_next b st stack bs G).
    + apply munch_err in M. subst x. discriminate.
Qed.

(** ** The plain modes *)
Section Plain.
Variable b : kind.
Variable choice : str -> nat -> Prop.
Hypothesis plain : b = MaxMode \/ b = MinMode.
Hypothesis picks : forall s n, pick (munches_max b) (narrow (is_punct (hd 0 s)) (lens s)) = Some n -> choice s n.
Hypothesis uniq : forall s n m, choice s n -> choice s m -> n = m.
Hypothesis is_len : forall s n, choice s n -> name_len ps s n.
Lemma pick_choice s n : choice s n <-> pick (munches_max b) (narrow (is_punct (hd 0 s)) (lens s)) = Some n.
Proof.
  split; [|apply picks]. intros C. destruct (pick _ _) as [m|] eqn:E.
  - f_equal. apply picks in E. eapply uniq; eauto.
  - apply pick_none in E. apply is_len, lens_in in C. rewrite E in C. destruct C.
Qed.
Lemma plain_next j bs : rev (ctx_of (b, j) bs) = [(b, j + 1)] /\ rev (next (b, j) bs) = [(b, j + 1)].
Proof. destruct plain as [-> | ->]; split; reflexivity. Qed.
Lemma loop_plain fuel j s acc since zs sn : no_empty_name ks -> (length s <= fuel)%nat ->
  encode_loop fuel tr [(b, j)] s acc since = Some (EOk (rev acc ++ zs) sn) <->
  cut_by choice illegal ps s zs /\ sn = fold_left (fun m k => py_max (t_since k) m) zs since.
Proof.
  intros NE. revert j s acc since zs. induction fuel as [|fuel IH]; intros j s acc since zs L.
  - destruct s; [|cbn in L; lia]. cbn [M_Tok.encode_loop]. split.
    + intros H. injection H as H <-. rewrite <- (app_nil_r (rev acc)) in H at 1. apply app_inv_head in H. subst zs. split; [constructor|reflexivity].
    + intros (C & ->). inversion C; subst; [now rewrite app_nil_r|contradiction|].
      match goal with H : literal [] _ |- _ => destruct H as (q & _ & [(X & _)|(X & _)]); discriminate X end.
  - cbn [M_Tok.encode_loop]. destruct s as [|c s'].
    + split.
      * intros H. injection H as H <-. rewrite <- (app_nil_r (rev acc)) in H at 1. apply app_inv_head in H. subst zs. split; [constructor|reflexivity].
      * intros (C & ->). inversion C; subst; [now rewrite app_nil_r|contradiction|].
        match goal with H : literal [] _ |- _ => destruct H as (q & _ & [(X & _)|(X & _)]); discriminate X end.
    + set (s := c :: s') in *. destruct (literal_len s) as [n|] eqn:LL.
      * rewrite (munch_literal (b, j) s n LL). pose proof (literal_len_some s n LL) as (L1 & L2 & L3 & L4).
        assert (SL : starts_literal s) by (destruct L1 as (q & _ & [(X & _)|(X & _)]); [now left|now right]).
        destruct (fromhex (lstrip_ux (firstn n s))) as [bb|x] eqn:FH; cbn [rbind].
        -- rewrite (proj2 (plain_next j _)). cbn [app].
           assert (LN : (length (skipn n s) <= fuel)%nat).
           { rewrite L2 in L. rewrite app_length in L. unfold str, bytes in *. lia. }
           split.
           ++ intros H. pose proof H as H'. apply loop_cut in H' as (zs' & E & _ & _). cbn [rev] in E. rewrite <- app_assoc in E. apply app_inv_head in E. subst zs. cbn [app] in *.
              replace (rev acc ++ illegal bb :: zs') with (rev (illegal bb :: acc) ++ zs') in H by (cbn [rev]; rewrite <- app_assoc; reflexivity).
              apply IH in H as (C & ->); [|exact LN]. split; [|reflexivity]. eapply by_literal; eauto.
           ++ intros (C & ->). inversion C as [E|? ? ? ? ? NS|s0 p b0 r ks0 P1 P2 P3 P4]; subst; [contradiction|].
              destruct (L4 p r P1 P2) as (-> & ->). unfold literal_bytes in P3. rewrite FH in P3. injection P3 as <-.
              replace (rev acc ++ illegal bb :: ks0) with (rev (illegal bb :: acc) ++ ks0) by (cbn [rev]; rewrite <- app_assoc; reflexivity).
              apply IH; [exact LN|]. split; [assumption|reflexivity].
        -- split; [destruct x; discriminate|]. intros (C & ->). inversion C as [E|? ? ? ? ? NS|s0 p b0 r ks0 P1 P2 P3 P4]; subst; [contradiction|].
           destruct (L4 p r P1 P2) as (-> & ->). unfold literal_bytes in P3. rewrite FH in P3. discriminate P3.
      * pose proof (munch_names (b, j) s LL) as M. cbn [fst] in M. pose proof (proj1 (literal_len_none s) LL) as NL.
        destruct (pick (munches_max b) (narrow (is_punct (hd 0 s)) (lens s))) as [n|] eqn:P.
        -- destruct M as (k & O & M). assert (LN : (length (skipn n s) <= fuel)%nat).
           { apply munch_shrinks in M; [lia|assumption|discriminate]. }
           rewrite M, (proj1 (plain_next j _)). cbn [app]. split.
           ++ intros H. pose proof H as H'. apply loop_cut in H' as (zs' & E & _ & _). cbn [rev] in E. rewrite <- app_assoc in E. apply app_inv_head in E. subst zs. cbn [app] in *.
              replace (rev acc ++ k :: zs') with (rev (k :: acc) ++ zs') in H by (cbn [rev]; rewrite <- app_assoc; reflexivity).
              apply IH in H as (C & ->); [|exact LN]. split; [|reflexivity].
              apply by_name with (n := n); [discriminate|exact NL|now apply picks|now apply named_owner|exact C].
           ++ intros (C & ->). inversion C as [E|s0 n0 k0 ks0 NS NL' CH NA C'|s0 p b0 r ks0 P1 P2 P3 P4]; subst.
              ** apply pick_choice in CH. rewrite P in CH. injection CH as <-. apply named_owner in NA. rewrite O in NA. injection NA as <-.
                 replace (rev acc ++ k :: ks0) with (rev (k :: acc) ++ ks0) by (cbn [rev]; rewrite <- app_assoc; reflexivity).
                 apply IH; [exact LN|]. split; [assumption|reflexivity].
              ** exfalso. apply NL. destruct P1 as (q & _ & [(X & _)|(X & _)]); [now left|now right].
        -- rewrite M. split; [discriminate|]. intros (C & ->). inversion C as [E|s0 n0 k0 ks0 NS NL' CH NA C'|s0 p b0 r ks0 P1 P2 P3 P4]; subst.
           ** apply pick_choice in CH. rewrite P in CH. discriminate CH.
           ** exfalso. apply NL. destruct P1 as (q & _ & [(X & _)|(X & _)]); [now left|now right].
Qed.
End Plain.
End Choice.
