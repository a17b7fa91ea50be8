(** Lemmas about the tokenizer. *)
From Verif Require Import L_Base M_Data M_Flags M_Models M_Class M_Var M_Tok S_Tok.

Section Tok.
Context {OS : Type}.
Variable os_gt : OS -> OS -> bool.
Variable INITIAL illegal_since : OS.
Notation token := (token OS).
Notation illegal := (illegal OS illegal_since).
Notation py_max := (py_max OS os_gt).

(** ** Decoding as structural recursion: tokens with a flag telling whether
    they are on the sheet. *)
Section Decode.
Variable sheet : bytes -> option token.
Fixpoint parse (l : bytes) : list (bool * token) :=
  match l with
  | [] => []
  | b :: r =>
      if b =? 0 then (if forallb (fun x => x =? 0) r then [] else (false, illegal [0]) :: parse r)
      else match sheet [b] with
           | Some t => (true, t) :: parse r
           | None => match r with
                     | [] => []
                     | c :: r' => match sheet [b; c] with
                                  | Some t => (true, t) :: parse r'
                                  | None => (false, illegal [b; c]) :: parse r'
                                  end
                     end
           end
  end.
Definition sinces (l : list (bool * token)) (s : OS) : OS :=
  fold_left (fun s p => if fst p : bool then py_max (t_since (snd p)) s else s) l s.
Definition clean (l : list (bool * token)) : bool := forallb fst l.

Lemma parse_zeros k r : forallb (fun x => x =? 0) r = false ->
  parse (zeros k ++ r) = map (fun _ => (false, illegal [0])) (zeros k) ++ parse r.
Proof.
  intros H. induction k as [|k IH]; [reflexivity|]. change (zeros (S k)) with (0 :: zeros k). cbn [app parse map]. change (0 =? 0) with true. cbv iota.
  rewrite forallb_app, H, andb_false_r. f_equal. exact IH.
Qed.
Lemma parse_all_zeros k : parse (zeros k) = [].
Proof.
  destruct k; [reflexivity|]. change (zeros (S k)) with (0 :: zeros k). cbn [parse]. change (0 =? 0) with true. cbv iota.
  replace (forallb _ (zeros k)) with true; [reflexivity|]. symmetry. apply forallb_forall. intros x I. apply repeat_spec in I. now subst.
Qed.
Lemma sinces_false k s : sinces (map (fun _ => (false, illegal [0])) (zeros k)) s = s.
Proof. unfold sinces. induction k; cbn; auto. Qed.
Lemma sinces_app a b s : sinces (a ++ b) s = sinces b (sinces a s).
Proof. unfold sinces. apply fold_left_app. Qed.

(** The states of the loop. *)
Definition curr_ok (curr : bytes) : Prop :=
  curr = [] \/ (exists b, curr = [b] /\ b <> 0 /\ sheet [b] = None) \/ (exists k, (0 < k)%nat /\ curr = zeros k).
Definition weight (curr : bytes) : nat := match curr with 0 :: _ => 1 | _ => 0 end.

Lemma last_snoc {A} (l : list A) x d : last (l ++ [x]) d = x.
Proof. induction l as [|a l IH]; [reflexivity|]. cbn [app last]. destruct (l ++ [x]) eqn:E; [destruct l; discriminate E|exact IH]. Qed.
Lemma zeros_snoc k : zeros k ++ [0] = zeros (S k).
Proof. unfold zeros. change [0] with (repeat 0 1). rewrite <- repeat_app. f_equal. lia. Qed.
Lemma map_const_rev {A B} (l : list A) (b : B) : rev (map (fun _ => b) l) = map (fun _ => b) l.
Proof.
  induction l as [|a l IH]; [reflexivity|]. cbn [map rev]. rewrite IH. clear. induction l as [|x l IH]; [reflexivity|]. cbn [map app]. now rewrite IH.
Qed.

Lemma decode_loop_parse fuel : forall stream index curr acc since, curr_ok curr ->
  (2 * (length stream - index) + weight curr < fuel)%nat ->
  exists n, decode_loop OS os_gt illegal_since sheet fuel stream index curr acc since =
    Some (repeat WDecode n, Ok (rev acc ++ map snd (parse (curr ++ skipn index stream)), sinces (parse (curr ++ skipn index stream)) since)) /\
    (n = 0%nat <-> clean (parse (curr ++ skipn index stream)) = true).
Proof.
  induction fuel as [|fuel IH]; intros stream index curr acc since C F; [lia|]. cbn [decode_loop].
  destruct (nth_error stream index) as [b|] eqn:E.
  - assert (LT : (index < length stream)%nat) by (apply nth_error_Some; congruence).
    assert (SK : skipn index stream = b :: skipn (S index) stream).
    { clear -E. revert stream E. induction index as [|i I]; intros [|x s] E; cbn in E; try discriminate; [now injection E as ->|]. cbn [skipn]. now rewrite (I s E). }
    rewrite SK. cbv zeta. destruct C as [->|[(x & -> & Hx & Sx)|(k & Hk & ->)]].
    + cbn [app hd last removelast map] in *. destruct (Z.eqb_spec b 0) as [->|Nb]; cbn [negb].
      * destruct (IH stream (S index) [0] acc since) as (n & R & N).
        { right; right. exists 1%nat. split; [lia|reflexivity]. }
        { cbn [weight] in *. lia. }
        exists n. split; [exact R|exact N].
      * cbn [parse]. replace (b =? 0) with false by lia. destruct (sheet [b]) as [t|] eqn:Sb.
        { destruct (IH stream (S index) [] (t :: acc) (py_max (t_since t) since)) as (n & R & N); [now left|cbn [weight] in *; lia|].
          exists n. rewrite R. cbn [app map snd rev fst clean forallb] in *. rewrite <- app_assoc. split; [reflexivity|exact N]. }
        { change (2 <=? zlen [b]) with false. cbv iota.
          destruct (IH stream (S index) [b] acc since) as (n & R & N); [right; left; eauto|destruct b; cbn [weight] in *; lia|].
          cbn [app parse] in R, N. replace (b =? 0) with false in R, N by lia. rewrite Sb in R, N.
          exists n. split; [exact R|exact N]. }
    + cbn [app hd last removelast map] in *. replace (x =? 0) with false by lia. cbn [negb]. cbn [parse].
      replace (x =? 0) with false by lia. rewrite Sx. destruct (sheet [x; b]) as [t|] eqn:Sb.
      * destruct (IH stream (S index) [] (t :: acc) (py_max (t_since t) since)) as (n & R & N); [now left|destruct x; cbn [weight] in *; lia|].
        exists n. rewrite R. cbn [app map snd rev fst clean forallb] in *. rewrite <- app_assoc. split; [reflexivity|exact N].
      * change (2 <=? zlen [x; b]) with true. cbv iota.
        destruct (IH stream (S index) [] (illegal [x; b] :: acc) since) as (n & R & N); [now left|destruct x; cbn [weight] in *; lia|].
        exists (S n). rewrite R. cbn [app map snd rev fst clean forallb] in *. rewrite <- app_assoc. split; [reflexivity|]. split; discriminate.
    + assert (H0 : hd 0 (zeros k ++ [b]) = 0) by (destruct k; [lia|reflexivity]). rewrite H0. change (0 =? 0) with true. cbn [negb].
      assert (W : weight (zeros k) = 1%nat) by (destruct k; [lia|reflexivity]).
      rewrite last_snoc. destruct (Z.eqb_spec b 0) as [->|Nb]; cbn [negb].
      * rewrite zeros_snoc. destruct (IH stream (S index) (zeros (S k)) acc since) as (n & R & N).
        { right; right. exists (S k). split; [lia|reflexivity]. }
        { rewrite W in F. change (weight (zeros (S k))) with 1%nat. lia. }
        exists n. replace (zeros k ++ 0 :: skipn (S index) stream) with (zeros (S k) ++ skipn (S index) stream).
        { split; [exact R|exact N]. }
        rewrite <- zeros_snoc, <- app_assoc. reflexivity.
      * rewrite removelast_last.
        destruct (IH stream index [] (map (fun _ => illegal [0]) (zeros k) ++ acc) since) as (n & R & N); [now left|cbn [weight] in *; lia|].
        rewrite SK in R, N. cbn [app] in R, N. exists (S n). rewrite R.
        assert (NZ : forallb (fun x => x =? 0) (b :: skipn (S index) stream) = false) by (cbn [forallb]; replace (b =? 0) with false by lia; reflexivity).
        rewrite parse_zeros by exact NZ. rewrite sinces_app, sinces_false, map_app, map_map, rev_app_distr. cbn [snd]. rewrite map_const_rev, <- app_assoc.
        split; [reflexivity|]. split; [discriminate|]. unfold clean. rewrite forallb_app. destruct k; [lia|discriminate].
  - assert (GE : (length stream <= index)%nat) by (apply nth_error_None; exact E). rewrite skipn_ge, app_nil_r by exact GE.
    exists 0%nat. assert (P : parse curr = []).
    { destruct C as [->|[(x & -> & Hx & Sx)|(k & Hk & ->)]]; [reflexivity| |apply parse_all_zeros].
      cbn [parse]. replace (x =? 0) with false by lia. now rewrite Sx. }
    rewrite P. cbn [map sinces fold_left clean forallb]. rewrite app_nil_r. split; [reflexivity|]. split; reflexivity.
Qed.
Lemma decode_parse stream : exists n, decode OS os_gt INITIAL illegal_since sheet stream =
    (repeat WDecode n, Ok (map snd (parse stream), sinces (parse stream) INITIAL)) /\ (n = 0%nat <-> clean (parse stream) = true).
Proof.
  unfold decode. destruct (decode_loop_parse (2 * length stream + 1) stream 0 [] [] INITIAL) as (n & R & N); [now left|cbn [weight]; lia|].
  rewrite R. cbn [app skipn rev] in *. exists n. split; [reflexivity|exact N].
Qed.

(** What the parse keeps. *)
Lemma parse_bytes_aux (n : nat) : sheet_ok sheet -> forall l, (length l <= n)%nat -> exists tail, l = concat (map (fun p => t_bits (snd p)) (parse l)) ++ tail /\
  (Forall (fun b => b = 0) tail \/ exists b, tail = [b] /\ b <> 0 /\ sheet [b] = None).
Proof.
  intros OK. induction n as [|n IH]; intros l L.
  { destruct l; [|cbn in L; lia]. exists []. split; [reflexivity|left; constructor]. }
  destruct l as [|b r]; [exists []; split; [reflexivity|left; constructor]|]. cbn [length] in L. cbn [parse].
  destruct (Z.eqb_spec b 0) as [->|Nb].
  - destruct (forallb (fun x => x =? 0) r) eqn:A.
    + exists (0 :: r). split; [reflexivity|]. left. constructor; [reflexivity|]. apply Forall_forall. intros x I.
      rewrite forallb_forall in A. apply A in I. lia.
    + destruct (IH r) as (tail & E & T); [lia|]. exists tail. cbn [map concat snd]. split; [|exact T].
      change (t_bits (illegal [0])) with [0]. cbn [app]. congruence.
  - destruct (sheet [b]) as [t|] eqn:Sb.
    + destruct (IH r) as (tail & E & T); [lia|]. exists tail. cbn [map concat snd]. rewrite (OK _ _ Sb). cbn [app]. split; [congruence|exact T].
    + destruct r as [|c r'].
      * exists [b]. split; [reflexivity|]. right. eauto.
      * cbn [length] in L. destruct (IH r') as (tail & E & T); [lia|]. exists tail.
        destruct (sheet [b; c]) as [t|] eqn:Sc; cbn [map concat snd]; [rewrite (OK _ _ Sc)|change (t_bits (illegal [b; c])) with [b; c]]; cbn [app]; (split; [congruence|exact T]).
Qed.
Lemma parse_flags_aux n : forall l, (length l <= n)%nat -> Forall (fun p => if fst p : bool then exists b, sheet b = Some (snd p) /\ hd 0 b <> 0 else
    snd p = illegal [0] \/ exists b c, snd p = illegal [b; c] /\ b <> 0 /\ sheet [b] = None /\ sheet [b; c] = None) (parse l).
Proof.
  induction n as [|n IH]; intros l L; [destruct l; [constructor|cbn in L; lia]|].
  destruct l as [|b r]; [constructor|]. cbn [length] in L. cbn [parse]. destruct (Z.eqb_spec b 0) as [->|Nb].
  - destruct (forallb _ r); [constructor|]. constructor; [now left|]. apply IH. lia.
  - destruct (sheet [b]) as [t|] eqn:Sb.
    + constructor; [|apply IH; lia]. cbn [fst snd]. exists [b]. auto.
    + destruct r as [|c r']; [constructor|]. cbn [length] in L.
      destruct (sheet [b; c]) as [t|] eqn:Sc; (constructor; [|apply IH; lia]); cbn [fst snd]; [exists [b; c]; auto|].
      right. exists b, c. auto.
Qed.
Lemma parse_concat ts : prefix_free sheet -> Forall (on_sheet sheet) ts ->
  parse (concat (map t_bits ts)) = map (fun t => (true, t)) ts.
Proof.
  intros [K P]. induction 1 as [|t ts Ht H IH]; [reflexivity|]. cbn [map concat]. unfold on_sheet in Ht.
  destruct (K _ _ Ht) as ([L|L] & N0).
  - destruct (t_bits t) as [|a [|? ?]] eqn:E; try discriminate L. cbn [hd] in N0. cbn [app parse]. replace (a =? 0) with false by lia.
    rewrite Ht. now rewrite IH.
  - destruct (t_bits t) as [|a [|b [|? ?]]] eqn:E; try discriminate L. cbn [hd] in N0. cbn [app parse]. replace (a =? 0) with false by lia.
    destruct (sheet [a]) as [u|] eqn:U; [exfalso; eauto|]. rewrite Ht. now rewrite IH.
Qed.
End Decode.

Lemma sinces_max rank l base : ranked os_gt rank -> is_max rank base (map t_since l) (sinces (map (fun t => (true, t)) l) base).
Proof.
  intros R. revert base. induction l as [|t l IH]; intros base.
  - split; [now left|]. split; [reflexivity|constructor].
  - cbn [map]. change (sinces ((true, t) :: map (fun t => (true, t)) l) base) with (sinces (map (fun t => (true, t)) l) (py_max (t_since t) base)).
    destruct (IH (py_max (t_since t) base)) as (A & B & C).
    assert (M : (py_max (t_since t) base = base /\ rank (t_since t) <= rank base) \/ (py_max (t_since t) base = t_since t /\ rank base <= rank (t_since t))).
    { unfold M_Tok.py_max. destruct (os_gt base (t_since t)) eqn:G.
      - left. split; [reflexivity|]. apply R in G. lia.
      - right. split; [reflexivity|]. apply Z.nlt_ge. intros Q. apply R in Q. congruence. }
    split; [|split].
    + destruct A as [A|A]; [|right; now right]. rewrite A. destruct M as [[-> _]|[-> _]]; [now left|right; now left].
    + destruct M as [[E _]|[E L]]; rewrite E in B |- *; lia.
    + constructor; [|exact C]. destruct M as [[E L]|[E L]]; rewrite E in B |- *; lia.
Qed.
End Tok.
