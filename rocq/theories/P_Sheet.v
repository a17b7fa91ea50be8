(** Property C152: the containers of tokens. *)
From Verif Require Import L_Base M_Data M_Flags M_Models M_Class M_Var M_Tok M_Sheet S_Tok L_Tok L_Encode P_Tok P_TokText.

Definition en : str := s2l "en".
Definition keys {K A} (d : list (K * A)) : list K := map fst d.

(** ** Dictionaries and sequences of results *)
Lemma rmapM_Forall2 {A B} (f : A -> result B) l r : rmapM f l = Ok r <-> Forall2 (fun x y => f x = Ok y) l r.
Proof.
  revert r. induction l as [|x l IH]; intros r; cbn [rmapM].
  - split; [intros H; injection H as <-; constructor|]. intros H. now inversion H.
  - destruct (f x) as [y|e] eqn:E; cbn [rbind].
    + destruct (rmapM f l) as [ys|e] eqn:R; cbn [rbind].
      * split.
        -- intros H. injection H as <-. constructor; [exact E|]. now apply IH.
        -- intros H. inversion H as [|? y' ? ys' P Q]; subst. apply IH in Q. rewrite E in P. congruence.
      * split; [discriminate|]. intros H. inversion H as [|? y' ? ys' P Q]; subst. apply IH in Q. discriminate Q.
    + split; [discriminate|]. intros H. inversion H as [|? y' ? ys' P Q]; subst. congruence.
Qed.
Lemma rmapM_total {A B} (f : A -> result B) l : (exists r, rmapM f l = Ok r) <-> forall x, In x l -> exists y, f x = Ok y.
Proof.
  split.
  - intros (r & H). apply rmapM_Forall2 in H. induction H as [|x y l r H F IH]; intros z I; [destruct I|].
    destruct I as [<-|I]; [now exists y|now apply IH].
  - induction l as [|x l IH]; intros H; [now exists []|]. destruct (H x (or_introl eq_refl)) as (y & E).
    destruct IH as (r & R); [intros z I; apply H; now right|]. exists (y :: r). cbn [rmapM]. now rewrite E, R.
Qed.
Lemma look_has {A} k (d : list (str * A)) : (exists a, look leqb k d = Some a) <-> In k (keys d).
Proof.
  unfold look, keys. induction d as [|(k', a) d IH]; cbn [find map fst]; [split; [intros (? & H); discriminate H|intros []]|].
  destruct (leqb k' k) eqn:E; cbn [option_map snd].
  - split; [intros _; left; now apply leqb_spec|now exists a].
  - rewrite IH. split; [now right|]. intros [X|X]; [|exact X]. apply leqb_spec in X. congruence.
Qed.
Lemma look_in {A} k a (d : list (str * A)) : look leqb k d = Some a -> In (k, a) d.
Proof.
  unfold look. intros H. destruct (find (fun p : list Z * A => leqb (fst p) k) d) as [(k', a')|] eqn:F; [|discriminate H]. injection H as <-.
  apply find_some in F as (I & E). apply leqb_spec in E. cbn [fst] in E. now subst.
Qed.
Lemma keys_unique {K A} (d : list (K * A)) k a a' : NoDup (keys d) -> In (k, a) d -> In (k, a') d -> a = a'.
Proof.
  unfold keys. induction d as [|(k0, a0) d IH]; intros N I J; [destruct I|]. cbn [map fst] in N. inversion N as [|? ? NI ND]; subst.
  destruct I as [I|I], J as [J|J].
  - congruence.
  - injection I as -> ->. exfalso. apply NI. apply in_map_iff. now exists (k, a').
  - injection J as -> ->. exfalso. apply NI. apply in_map_iff. now exists (k, a).
  - now apply IH.
Qed.
Lemma in_keys {K A} (d : list (K * A)) k : In k (keys d) <-> exists a, In (k, a) d.
Proof.
  unfold keys. rewrite in_map_iff. split; [intros ((k', a) & <- & I); now exists a|intros (a & I); now exists (k, a)].
Qed.
Lemma look_iff {A} k a (d : list (str * A)) : NoDup (keys d) -> look leqb k d = Some a <-> In (k, a) d.
Proof.
  intros N. split; [apply look_in|]. intros I. destruct (proj2 (look_has k d)) as (a' & E); [apply in_keys; now exists a|].
  rewrite E. f_equal. apply look_in in E. now apply (keys_unique d k).
Qed.

Ltac step H x E := match type of H with rbind ?r _ = _ => destruct r as [x|] eqn:E; [cbn [rbind] in H|discriminate H] end.

Section Theorems.
Context {OS : Type}.
Notation stoken := (stoken OS).
Implicit Types (b : list (bytes * stoken)) (langs : list (str * list (str * bytes))) (k : stoken).

Lemma ti_token_ok k : (exists k', ti_token k = Ok k') <-> In en (keys (st_langs k)).
Proof.
  unfold ti_token. fold en. rewrite <- look_has. destruct (look leqb en (st_langs k)) as [t|].
  - split; intros _; eauto.
  - split; intros (? & H); discriminate H.
Qed.
Lemma ti_token_same k k' : ti_token k = Ok k' -> k' = k.
Proof. unfold ti_token. destruct (look _ _ _); intros H; [now injection H|discriminate H]. Qed.
Lemma bytes_same b bm : rmapM (fun p => try k := ti_token (snd p) in Ok (fst p, k)) b = Ok bm -> bm = b.
Proof.
  intros H. apply rmapM_Forall2 in H. induction H as [|(d, k) y l r H F IH]; [reflexivity|]. cbn [fst snd] in H.
  destruct (ti_token k) as [k'|] eqn:E; [|discriminate H]. apply ti_token_same in E as ->. injection H as <-. now f_equal.
Qed.
Lemma token_in_ok lang k : (exists t, token_in lang k = Ok t) <-> In en (keys (st_langs k)) /\ (lang <> [] -> In lang (keys (st_langs k))).
Proof.
  unfold token_in. fold en. rewrite <- !look_has. destruct (look leqb en (st_langs k)) as [t|]; cbn [or_key rbind].
  - destruct lang as [|c lang]; [split; [intros _; split; [now exists t|intros X; now destruct X]|eauto]|].
    destruct (look leqb (c :: lang) (st_langs k)) as [t'|].
    + split; [intros _; split; [now exists t|intros _; now exists t']|eauto].
    + split; [intros (? & H); discriminate H|]. intros (_ & H). destruct H as (? & H); discriminate.
  - split; [intros (? & H); discriminate H|intros ((? & H) & _); discriminate H].
Qed.

(** When a sheet can be loaded at all. *)
Theorem C152_built : forall b langs, (exists c, build b langs = Ok c) <->
  (forall d k, In (d, k) b -> In en (keys (st_langs k))) /\
  (forall lang ns n d, In (lang, ns) langs -> In (n, d) ns -> In d (keys b)) /\
  (forall lang ns d k, In (lang, ns) langs -> lang <> [] -> In (d, k) b -> In lang (keys (st_langs k))) /\
  In en (keys langs).
Proof.
  intros b langs. unfold build. fold en. split.
  - intros (c & H). step H bm B. pose proof (bytes_same _ _ B) as ->.
    step H lm L. cbv zeta in H.
    step H tr T.
    destruct (look leqb en lm) as [x|] eqn:E; [|discriminate H]. clear H. split; [|split; [|split]].
    + intros d k I. pose proof (proj1 (rmapM_total _ _) (ex_intro _ b B) (d, k) I) as (y & Y). cbn [fst snd] in Y.
      apply ti_token_ok. destruct (ti_token k); [eauto|discriminate Y].
    + intros lang ns n d I J. pose proof (proj1 (rmapM_total _ _) (ex_intro _ lm L) (lang, ns) I) as (y & Y). cbn [fst snd] in Y.
      step Y r R.
      pose proof (proj1 (rmapM_total _ _) (ex_intro _ r R) (n, d) J) as (z & Q). cbn [fst snd] in Q. apply look_has.
      destruct (look leqb d b); [eauto|discriminate Q].
    + intros lang ns d k I NL J.
      assert (X : exists ns', In (lang, ns') lm).
      { apply rmapM_Forall2 in L. clear - L I. induction L as [|x y l r H F IH]; [destruct I|].
        destruct I as [->|I]; [|destruct (IH I) as (ns' & X); exists ns'; now right].
        cbn [fst snd] in H. step H q EQ. injection H as <-. exists q. now left. }
      destruct X as (ns' & X). pose proof (proj1 (rmapM_total _ _) (ex_intro _ tr T) (lang, ns') X) as (y & Y). cbn [fst snd] in Y.
      step Y r R.
      pose proof (proj1 (rmapM_total _ _) (ex_intro _ r R) (d, k) J) as (t & Q). cbn [fst snd] in Q.
      now apply (proj1 (token_in_ok lang k) (ex_intro _ t Q)).
    + assert (X : keys lm = keys langs).
      { apply rmapM_Forall2 in L. clear - L. unfold keys. induction L as [|x y l r H F IH]; [reflexivity|]. cbn [map].
        step H q EQ. injection H as <-. now rewrite IH. }
      rewrite <- X. apply look_has. now exists x.
  - intros (HE & HB & HL & HN).
    destruct (proj2 (rmapM_total (fun p : bytes * stoken => try k := ti_token (snd p) in Ok (fst p, k)) b)) as (bm & B).
    { intros (d, k) I. cbn [fst snd]. destruct (proj2 (ti_token_ok k) (HE d k I)) as (k' & ->). cbn [rbind]. eauto. }
    rewrite B. pose proof (bytes_same _ _ B) as ->. cbn [rbind]. clear B.
    match goal with |- exists c, rbind (rmapM ?f langs) _ = _ => destruct (proj2 (rmapM_total f langs)) as (lm & L) end.
    { intros (lang, ns) I. cbn [fst snd].
      match goal with |- exists y, rbind (rmapM ?f ns) _ = _ => destruct (proj2 (rmapM_total f ns)) as (r & R) end.
      - intros (n, d) J. cbn [fst snd]. destruct (proj2 (look_has d b) (HB _ _ _ _ I J)) as (k & ->). cbn [or_key rbind]. eauto.
      - rewrite R. cbn [rbind]. eauto. }
    rewrite L. cbn [rbind]. cbv zeta.
    assert (X : keys lm = keys langs).
    { apply rmapM_Forall2 in L. clear - L. unfold keys. induction L as [|x y l r H F IH]; [reflexivity|]. cbn [map].
      step H q EQ. injection H as <-. now rewrite IH. }
    match goal with |- exists c, rbind (rmapM ?f lm) _ = _ => destruct (proj2 (rmapM_total f lm)) as (tr & T) end.
    { intros (lang, ns) I. cbn [fst snd].
      match goal with |- exists y, rbind (rmapM ?f b) _ = _ => destruct (proj2 (rmapM_total f b)) as (r & R) end.
      - intros (d, k) J. cbn [fst snd]. apply token_in_ok. split; [now apply (HE d)|]. intros NL.
        assert (Y : In lang (keys langs)) by (rewrite <- X; apply in_keys; now exists ns).
        apply in_keys in Y as (ns' & Y). now apply (HL lang ns' d k).
      - rewrite R. cbn [rbind]. eauto. }
    rewrite T. cbn [rbind]. rewrite <- X in HN. apply look_has in HN as (x & ->). eauto.
Qed.

(** The parts of a container. *)
Lemma build_parts b langs c : build b langs = Ok c -> c_bytes c = b /\
  Forall2 (fun l l' => fst l' = fst l /\ Forall2 (fun p q => fst q = fst p /\ look leqb (snd p) b = Some (snd q)) (snd l) (snd l')) langs (c_langs c) /\
  c_names c = concat (map snd (c_langs c)) /\
  Forall2 (fun l t => fst t = fst l /\ exists ts, rmapM (fun p => token_in (fst l) (snd p)) b = Ok ts /\ snd t = from_tokens ts) (c_langs c) (c_tries c).
Proof.
  unfold build. fold en. intros H. step H bm B. pose proof (bytes_same _ _ B) as ->.
  step H lm L. cbv zeta in H.
  step H tr T.
  destruct (look leqb en lm) as [x|] eqn:E; [|discriminate H]. injection H as <-. cbn [c_bytes c_langs c_names c_tries].
  split; [reflexivity|]. split; [|split; [reflexivity|]].
  - apply rmapM_Forall2 in L. clear - L. induction L as [|l l' ls ls' H F IH]; constructor; [|exact IH].
    step H r R. injection H as <-. cbn [fst snd]. split; [reflexivity|].
    apply rmapM_Forall2 in R. clear - R. induction R as [|p q ps qs H F IH]; constructor; [|exact IH].
    destruct (look leqb (snd p) b) as [k|]; [|discriminate H]. injection H as <-. now split.
  - apply rmapM_Forall2 in T. clear - T. induction T as [|l t ls ts H F IH]; constructor; [|exact IH].
    step H r R. injection H as <-. cbn [fst snd]. split; [reflexivity|]. now exists r.
Qed.
(** Indexing by bytes. *)
Theorem C152_bytes : forall b langs c d k, build b langs = Ok c -> NoDup (keys b) -> of_bytes c d = Ok k <-> In (d, k) b.
Proof.
  intros b langs c d k H N. apply build_parts in H as (E & _). unfold of_bytes. rewrite E, <- (look_iff d k b N).
  destruct (look leqb d b) as [k'|]; cbn [or_key]; split; congruence.
Qed.

(** Indexing by name: the last language that has the name. *)
Definition last_named (langs : list (str * list (str * bytes))) (b : list (bytes * stoken)) (n : str) (k : stoken) : Prop :=
  exists l1 lang ns l2 d, langs = l1 ++ (lang, ns) :: l2 /\ In (n, d) ns /\ In (d, k) b /\
    forall lang' ns', In (lang', ns') l2 -> ~ In n (keys ns').
Lemma look_app {A} n (x y : list (str * A)) : look leqb n (x ++ y) = match look leqb n x with Some a => Some a | None => look leqb n y end.
Proof.
  unfold look. induction x as [|(n', a) x IH]; [reflexivity|]. cbn [app find fst]. destruct (leqb n' n); [reflexivity|exact IH].
Qed.
Lemma look_rev {A} n (x : list (str * A)) : NoDup (keys x) -> look leqb n (rev x) = look leqb n x.
Proof.
  intros N. assert (NR : NoDup (keys (rev x))) by (unfold keys; rewrite map_rev; now apply NoDup_rev).
  destruct (look leqb n x) as [a|] eqn:E.
  - apply (look_iff n a (rev x) NR). rewrite <- in_rev. now apply look_in.
  - destruct (look leqb n (rev x)) as [a|] eqn:R; [|reflexivity]. apply (look_iff n a (rev x) NR) in R. rewrite <- in_rev in R.
    apply (look_iff n a x N) in R. congruence.
Qed.
Lemma names_related b (l : list (str * bytes)) (l' : list (str * stoken)) : Forall2 (fun p q => fst q = fst p /\ look leqb (snd p) b = Some (snd q)) l l' ->
  keys l' = keys l /\ forall n k, In (n, k) l' <-> exists d, In (n, d) l /\ look leqb d b = Some k.
Proof.
  intros F. split.
  - unfold keys. induction F as [|p q l l' (H & _) F IH]; [reflexivity|]. cbn [map]. now rewrite H, IH.
  - intros n k. induction F as [|(n0, d0) (n1, k1) l l' (H & H') F IH]; [split; [intros []|intros (d & [] & _)]|].
    cbn [fst snd] in *. subst n1. cbn [In]. rewrite IH. split.
    + intros [X|(d & I & L)]; [injection X as -> ->; exists d0; split; [now left|exact H']|exists d; split; [now right|exact L]].
    + intros (d & [X|I] & L); [injection X as -> ->; left; congruence|right; now exists d].
Qed.
Theorem C152_names : forall b langs c n k, build b langs = Ok c -> NoDup (keys b) ->
  (forall lang ns, In (lang, ns) langs -> NoDup (keys ns)) -> of_name c n = Ok k <-> last_named langs b n k.
Proof.
  intros b langs c n k H NB NN. apply build_parts in H as (_ & F & E & _). unfold of_name. rewrite E. clear E.
  transitivity (look leqb n (rev (concat (map snd (c_langs c)))) = Some k).
  { destruct (look leqb n _); cbn [or_key]; split; congruence. }
  generalize dependent (c_langs c). intros lm F.
  revert NN. induction F as [|(lang, ns) (lang', ns') ls ls' (HL & H) F IH]; intros NN.
  - cbn. split; [discriminate|]. intros (l1 & ? & ? & l2 & ? & X & _). destruct l1; discriminate X.
  - cbn [fst snd] in HL, H. cbn [map concat snd] in *. rewrite rev_app_distr, look_app in *.
    assert (K' : (exists k', look leqb n (rev (concat (map snd ls'))) = Some k') <-> exists lang ns, In (lang, ns) ls /\ In n (keys ns)).
    { rewrite look_has. unfold keys. rewrite map_rev, <- in_rev. clear - F. induction F as [|l l' ls ls' (_ & H) F IH]; cbn [map concat].
      - split; [intros []|intros (? & ? & [] & _)].
      - rewrite map_app, in_app_iff, IH. apply names_related in H as (H & _). unfold keys in H. rewrite H. destruct l as (lang, ns). cbn [snd]. split.
        + intros [I|(lang' & ns' & I & J)]; [exists lang, ns|exists lang', ns']; split; [now left|exact I|now right|exact J].
        + intros (lang' & ns' & [I|I] & J); [injection I as -> ->; now left|right; now exists lang', ns']. }
    specialize (IH (fun l m I => NN l m (or_intror I))).
    destruct (look leqb n (rev (concat (map snd ls')))) as [k'|] eqn:E.
    + rewrite IH. split; intros (l1 & la & m & l2 & d & X & Y).
      * exists ((lang, ns) :: l1), la, m, l2, d. rewrite X. now split.
      * destruct l1 as [|p l1]; [|injection X as _ X2; exists l1, la, m, l2, d; now split]. injection X as _ _ X2.
        exfalso. destruct (proj1 K' (ex_intro _ k' eq_refl)) as (la' & m' & I & J). destruct Y as (_ & _ & Y). apply (Y la' m'); [now rewrite <- X2|exact J].
    + pose proof (names_related b ns ns' H) as (KE & KI). rewrite look_rev.
      2:{ rewrite KE. apply (NN lang ns). now left. }
      rewrite (look_iff n k ns') by (rewrite KE; apply (NN lang ns); now left). rewrite KI. split.
      * intros (d & I & L). exists [], lang, ns, ls, d. split; [reflexivity|]. split; [exact I|]. split; [now apply look_in|].
        intros la m J Q. destruct (proj2 K' (ex_intro _ la (ex_intro _ m (conj J Q)))) as (k' & X). discriminate X.
      * intros (l1 & la & m & l2 & d & X & I & J & Q). destruct l1 as [|p l1].
        -- injection X as _ <- _. exists d. split; [exact I|now apply look_iff].
        -- injection X as _ X2. exfalso. assert (Y : exists k', @None stoken = Some k').
           { apply K'. exists la, m. split; [rewrite X2; apply in_or_app; right; now left|apply in_keys; now exists d]. }
           destruct Y as (k' & Y). discriminate Y.
Qed.

(** The tries: one for each language, with every token under its names there. *)
Definition in_language (lang : str) (k : stoken) (t : token OS) : Prop :=
  t_bits t = st_bits k /\ (exists shown, In (lang, (shown, t_names t)) (st_langs k)) /\
  exists names, In (en, (t_display t, names)) (st_langs k).
Lemma token_in_spec lang k t : lang <> [] -> token_in lang k = Ok t -> in_language lang k t.
Proof.
  intros NL. unfold token_in. fold en. destruct (look leqb en (st_langs k)) as [(shown, names)|] eqn:E; [|discriminate]. cbn [or_key rbind].
  destruct lang as [|c lang]; [now destruct NL|]. destruct (look leqb (c :: lang) (st_langs k)) as [(shown', names')|] eqn:L; [|discriminate].
  intros H. injection H as <-. unfold in_language. cbn [t_bits t_names t_display fst snd]. apply look_in in E, L.
  split; [reflexivity|]. split; [now exists shown'|now exists names].
Qed.
Theorem C152_tries : forall b langs c lang ns, build b langs = Ok c -> NoDup (keys langs) -> In (lang, ns) langs -> lang <> [] ->
  exists ts, look leqb lang (c_tries c) = Some (from_tokens ts) /\ Forall2 (fun p t => in_language lang (snd p) t) b ts.
Proof.
  intros b langs c lang ns H ND I NL. apply build_parts in H as (_ & F & _ & T).
  assert (K : keys (c_tries c) = keys langs).
  { clear - F T. unfold keys. revert T. generalize (c_tries c). induction F as [|l l' ls ls' (H & _) F IH]; intros tr T; inversion T as [|? t ? ts (H' & _) G]; subst; [reflexivity|].
    cbn [map]. now rewrite (IH _ G), H', H. }
  assert (X : exists ts, In (lang, from_tokens ts) (c_tries c) /\ rmapM (fun p => token_in lang (snd p)) b = Ok ts).
  { clear - F T I. revert T. generalize (c_tries c). induction F as [|l l' ls ls' (H & _) F IH]; intros tr T; inversion T as [|? t ? ts (H' & q & R & Q) G]; subst; [destruct I|].
    destruct I as [->|I]; [|destruct (IH I _ G) as (u & U & V); exists u; split; [now right|exact V]].
    cbn [fst] in H. exists q. rewrite H in R. split; [left|exact R]. destruct t as (t1, t2). cbn [fst snd] in *. congruence. }
  destruct X as (ts & X & R). exists ts. split.
  - apply look_iff; [rewrite K; exact ND|exact X].
  - apply rmapM_Forall2 in R. clear - R NL. induction R as [|p t l r H F IH]; constructor; [now apply token_in_spec|exact IH].
Qed.
(** Where the name maps say what the tokens say, the name map and the tries agree
    on the names that no later language has. *)
Definition honest (b : list (bytes * stoken)) (langs : list (str * list (str * bytes))) : Prop :=
  (forall d k, In (d, k) b -> st_bits k = d) /\
  forall lang ns n d, In (lang, ns) langs ->
    In (n, d) ns <-> exists k shown names, In (d, k) b /\ In (lang, (shown, names)) (st_langs k) /\ In n names.
Theorem C152_agree : forall b l1 lang ns l2 c n, build b (l1 ++ (lang, ns) :: l2) = Ok c -> honest b (l1 ++ (lang, ns) :: l2) ->
  NoDup (keys b) -> (forall d k, In (d, k) b -> NoDup (keys (st_langs k))) -> NoDup (keys (l1 ++ (lang, ns) :: l2)) ->
  (forall la m, In (la, m) (l1 ++ (lang, ns) :: l2) -> NoDup (keys m)) -> lang <> [] ->
  In n (keys ns) -> (forall la m, In (la, m) l2 -> ~ In n (keys m)) ->
  exists k tr, of_name c n = Ok k /\ look leqb lang (c_tries c) = Some tr /\
    (exists t, In (t, []) (trie_match tr n)) /\ forall t, In (t, []) (trie_match tr n) -> t_bits t = st_bits k.
Proof.
  intros b l1 lang ns l2 c n H (HB & HN) NB NK NL NN NE I LA. set (langs := l1 ++ (lang, ns) :: l2) in *.
  assert (IL : In (lang, ns) langs) by (apply in_or_app; right; now left).
  apply in_keys in I as (d & I). destruct (proj1 (HN lang ns n d IL) I) as (k & shown & names & K1 & K2 & K3).
  destruct (C152_tries b langs c lang ns H NL IL NE) as (ts & T & F). exists k, (from_tokens ts).
  split; [|split; [exact T|]].
  { apply (C152_names b langs c n k H NB NN). exists l1, lang, ns, l2, d. repeat split; assumption. }
  assert (G : forall t, In (t, []) (trie_match (from_tokens ts) n) <-> named (pairs_of ts) n t).
  { intros t. rewrite (C42_sound_complete (fun _ _ => true) (fun _ _ => true) (st_since k) (fun s => s)). split.
    - intros (m & E & X). rewrite app_nil_r in E. now subst.
    - intros X. exists n. now rewrite app_nil_r. }
  split.
  - assert (X : exists t, In t ts /\ In n (t_names t)).
    { clear - F K1 K2 K3 NK. induction F as [|(d', k') t l r (A1 & (sh & A2) & A3) F IH]; [destruct K1|].
      destruct K1 as [E|K1].
      - injection E as -> ->. exists t. split; [now left|]. cbn [snd] in A2.
        pose proof (keys_unique (st_langs k) lang _ _ (NK d k (or_introl eq_refl)) A2 K2) as E. injection E as _ ->. exact K3.
      - destruct (IH (fun d k X => NK d k (or_intror X)) K1) as (t' & X & Y). exists t'. split; [now right|exact Y]. }
    destruct X as (t & X & Y). destruct (named_exists ts n t X Y) as (t' & Q). exists t'. now apply G.
  - intros t X. apply G in X. apply named_name in X as (X & Y).
    assert (Q : exists d' k', In (d', k') b /\ in_language lang k' t).
    { clear - F X. induction F as [|(d', k') t' l r A F IH]; [destruct X|]. destruct X as [->|X].
      - exists d', k'. split; [now left|exact A].
      - destruct (IH X) as (d1 & k1 & P & Q). exists d1, k1. split; [now right|exact Q]. }
    destruct Q as (d' & k' & Q1 & Q2 & (sh & Q3) & _).
    assert (W : In (n, d') ns) by (apply (HN lang ns n d' IL); exists k', sh, (t_names t); repeat split; assumption).
    pose proof (keys_unique ns n _ _ (NN lang ns IL) I W) as <-. rewrite Q2, (HB _ _ Q1). symmetry. now apply HB.
Qed.
End Theorems.

(** A sheet on which the name map and the English trie disagree: "x" and "y" are
    swapped in a second language. *)
Definition fr : str := s2l "fr".
Definition kx1 : stoken Z := STok [1] 0 [(en, (s2l "x", [s2l "x"])); (fr, (s2l "y", [s2l "y"]))].
Definition kx2 : stoken Z := STok [2] 0 [(en, (s2l "y", [s2l "y"])); (fr, (s2l "x", [s2l "x"]))].
Definition swap_bytes : list (bytes * stoken Z) := [([1], kx1); ([2], kx2)].
Definition swap_langs : list (str * list (str * bytes)) :=
  [(en, [(s2l "x", [1]); (s2l "y", [2])]); (fr, [(s2l "y", [1]); (s2l "x", [2])])].
Theorem C152_clash_refuted : exists b langs c n (k k' : stoken Z) t tr, build b langs = Ok c /\ of_name c n = Ok k /\
  look leqb en (c_tries c) = Some tr /\ trie_match tr n = [(t, [])] /\ t_bits t = st_bits k' /\ In (n, st_bits k') (snd (nth 0 langs ([], []))) /\
  st_bits k <> st_bits k'.
Proof.
  exists swap_bytes, swap_langs. eexists. exists (s2l "x"), kx2, kx1. do 2 eexists. split; [vm_compute; reflexivity|].
  split; [vm_compute; reflexivity|]. split; [vm_compute; reflexivity|]. split; [vm_compute; reflexivity|]. split; [reflexivity|].
  split; [left; reflexivity|discriminate].
Qed.
Print Assumptions C152_built.
Print Assumptions C152_bytes.
Print Assumptions C152_names.
Print Assumptions C152_tries.
Print Assumptions C152_agree.
Print Assumptions C152_clash_refuted.
(** A sheet with two languages; one name is shared by one token. *)
Definition kd : stoken Z := STok [1] 0 [(en, (s2l "Disp ", [s2l "Disp "])); (fr, (s2l "Disp ", [s2l "Disp "]))].
Definition kw : stoken Z := STok [2] 0 [(en, (s2l "While ", [s2l "While "; s2l "W"])); (fr, (s2l "Tantque ", [s2l "Tantque "]))].
Definition two_bytes : list (bytes * stoken Z) := [([1], kd); ([2], kw)].
Definition two_langs : list (str * list (str * bytes)) :=
  [(en, [(s2l "Disp ", [1]); (s2l "While ", [2]); (s2l "W", [2])]); (fr, [(s2l "Disp ", [1]); (s2l "Tantque ", [2])])].
Example C152_example : exists c, build two_bytes two_langs = Ok c /\ honest two_bytes two_langs /\
  of_bytes c [2] = Ok kw /\ of_name c (s2l "Tantque ") = Ok kw /\ of_name c (s2l "W") = Ok kw /\ of_name c (s2l "Disp ") = Ok kd /\
  of_name c (s2l "Tant") = Err KeyError /\ last_named two_langs two_bytes (s2l "Tantque ") kw.
Proof.
  eexists. split; [vm_compute; reflexivity|]. split.
  { split.
    - intros d k [E|[E|[]]]; injection E as <- <-; reflexivity.
    - intros lang ns n d [E|[E|[]]]; injection E as <- <-; split.
      + intros [E|[E|[E|[]]]]; injection E as <- <-.
        * exists kd, (s2l "Disp "), [s2l "Disp "]. repeat split; cbn; tauto.
        * exists kw, (s2l "While "), [s2l "While "; s2l "W"]. repeat split; cbn; tauto.
        * exists kw, (s2l "While "), [s2l "While "; s2l "W"]. repeat split; cbn; tauto.
      + intros (k & shown & names & [E|[E|[]]] & J & K); injection E as <- <-; destruct J as [J|[J|[]]]; try discriminate J; injection J as <- <-; cbn in K |- *; intuition (subst; tauto).
      + intros [E|[E|[]]]; injection E as <- <-.
        * exists kd, (s2l "Disp "), [s2l "Disp "]. repeat split; cbn; tauto.
        * exists kw, (s2l "Tantque "), [s2l "Tantque "]. repeat split; cbn; tauto.
      + intros (k & shown & names & [E|[E|[]]] & J & K); injection E as <- <-; destruct J as [J|[J|[]]]; try discriminate J; injection J as <- <-; cbn in K |- *; intuition (subst; tauto). }
  repeat (split; [vm_compute; reflexivity|]).
  exists [nth 0 two_langs ([], [])], fr, [(s2l "Disp ", [1]); (s2l "Tantque ", [2])], [], [2]. repeat split; cbn; try tauto.
Qed.
