(** Property C107: smart mode is exactly the context-dependent cut of the text. *)
From Verif Require Import L_Base M_Data M_Flags M_Models M_Class M_Var M_Tok S_Data L_Data S_Var L_Models P_Models L_Var L_VarFile P_Var S_Tok S_Smart L_Tok L_Encode P_Tok.

(** The stack at a place. *)
Definition stack_at (p : place) (stack : list state) : Prop :=
  match p with
  | Outside => exists j, stack = [(SmartMode, j)]
  | InString => exists n j, stack = [(KStringState, n); (SmartMode, j)]
  | AfterSend => exists n j, stack = [(InterpolationStart, n); (SmartMode, j)]
  | InSent => exists n j, stack = [(InterpolatedString, n); (SmartMode, j)]
  | InName lim n => exists K j, (K = KListName \/ K = KProgramName) /\ max_length K = Some lim /\ stack = [(K, n); (SmartMode, j)]
  end.
Lemma leqb_one b x : leqb b [x] = match b with [y] => y =? x | _ => false end.
Proof. destruct b as [|y [|z r]]; cbn [leqb]; [reflexivity|now rewrite andb_true_r|now rewrite andb_false_r]. Qed.
Lemma continues_lex b : (lex_le [48] b && lex_le b [57]) || (lex_le [65] b && lex_le b [91]) = continues b.
Proof.
  unfold continues. destruct b as [|x [|y r]]; [reflexivity| |]; cbn [lex_le];
    repeat match goal with |- context [if ?c then _ else _] => destruct c eqn:? end; lia.
Qed.
Lemma case42 {A} (b : bytes) (u v w x y : A) :
  match b with [42] => u | [95] => v | [231] => w | [235] => x | _ => y end =
  (if leqb b [42] then u else if leqb b [95] then v else if leqb b [231] then w else if leqb b [235] then x else y).
Proof.
  rewrite !leqb_one. destruct b as [|c [|d r]]; [reflexivity| |].
  - destruct (Z.eqb_spec c 42) as [->|N1]; [reflexivity|]. destruct (Z.eqb_spec c 95) as [->|N2]; [reflexivity|].
    destruct (Z.eqb_spec c 231) as [->|N3]; [reflexivity|]. destruct (Z.eqb_spec c 235) as [->|N4]; [reflexivity|].
    destruct c as [|c|c]; try reflexivity; do 8 (try (destruct c as [c|c|]; try reflexivity)); exfalso; try (now apply N1); try (now apply N2); try (now apply N3); now apply N4.
  - destruct c as [|c|c]; try reflexivity; do 8 (try (destruct c as [c|c|]; try reflexivity)).
Qed.
Lemma case_end {A} (b : bytes) (u v : A) :
  match b with [42] | [4] | [63] => u | _ => v end = (if leqb b [42] || (leqb b [4] || leqb b [63]) then u else v).
Proof.
  rewrite !leqb_one. destruct b as [|c [|d r]]; [reflexivity| |].
  - destruct (Z.eqb_spec c 42) as [->|N1]; [reflexivity|]. destruct (Z.eqb_spec c 4) as [->|N2]; [reflexivity|].
    destruct (Z.eqb_spec c 63) as [->|N3]; [reflexivity|]. cbn [orb].
    destruct c as [|c|c]; try reflexivity; do 6 (try (destruct c as [c|c|]; try reflexivity)); exfalso; try (now apply N1); try (now apply N2); now apply N3.
  - destruct c as [|c|c]; try reflexivity; do 6 (try (destruct c as [c|c|]; try reflexivity)).
Qed.
Lemma case_quote {A} (b : bytes) (u v : A) : match b with [42] => u | _ => v end = (if leqb b [42] then u else v).
Proof.
  rewrite leqb_one. destruct b as [|c [|d r]]; [reflexivity| |].
  - destruct (Z.eqb_spec c 42) as [->|N1]; [reflexivity|].
    destruct c as [|c|c]; try reflexivity; do 6 (try (destruct c as [c|c|]; try reflexivity)); exfalso; now apply N1.
  - destruct c as [|c|c]; try reflexivity; do 6 (try (destruct c as [c|c|]; try reflexivity)).
Qed.
Lemma continues_not_end b : continues b = true -> leqb b [4] || leqb b [63] = false.
Proof. rewrite !leqb_one. unfold continues. destruct b as [|x [|y r]]; [reflexivity| |reflexivity]. lia. Qed.

Lemma stack_step p st stack b : stack_at p (st :: stack) ->
  stack_at (after p true b) (rev (next st b) ++ stack) /\ stack_at (after p false b) (rev (ctx_of st b) ++ stack).
Proof.
  intros H. destruct p as [| | | |lim n]; cbn [stack_at] in H.
  - destruct H as (j & H). injection H as -> ->. unfold ctx_of. cbn [fst max_length]. cbn [after]. rewrite case42.
    unfold next. cbn [fst snd]. repeat match goal with |- context [if ?c then _ else _] => destruct c end;
      cbn [rev app stack_at]; split; eauto 10.
  - destruct H as (n & j & H). injection H as -> ->. unfold ctx_of. cbn [fst max_length]. cbn [after]. rewrite case_end.
    unfold next, line_next. cbn [fst snd]. destruct (leqb b [42]); cbn [orb]; [cbn [rev app stack_at]; eauto 10|].
    destruct (leqb b [4] || leqb b [63]); cbn [rev app stack_at]; eauto 10.
  - destruct H as (n & j & H). injection H as -> ->. unfold ctx_of. cbn [fst max_length]. cbn [after]. rewrite case_quote.
    unfold next. cbn [fst snd]. destruct (leqb b [42]); cbn [rev app stack_at]; eauto 10.
  - destruct H as (n & j & H). injection H as -> ->. unfold ctx_of. cbn [fst max_length]. cbn [after]. rewrite case_end.
    unfold next, line_next. cbn [fst snd]. destruct (leqb b [42]); cbn [orb]; [cbn [rev app stack_at]; eauto 10|].
    destruct (leqb b [4] || leqb b [63]); cbn [rev app stack_at]; eauto 10.
  - destruct H as (K & j & KN & M & H). injection H as -> ->. unfold ctx_of. cbn [fst snd after]. rewrite M.
    assert (X : next (K, n) b = if continues b then [(K, n + 1)] else []).
    { unfold next. cbn [fst snd]. destruct KN as [-> | ->]; rewrite continues_lex; unfold line_next; cbn [fst snd];
        (destruct (continues b) eqn:C; [rewrite (continues_not_end b C)|]; reflexivity). }
    rewrite X. destruct (continues b); cbn [andb orb].
    + split; [cbn [rev app stack_at]; eauto 10|]. destruct (n =? lim); cbn [negb rev app stack_at]; eauto 10.
    + split; [cbn [rev app stack_at]; eauto 10|]. destruct (n =? lim); cbn [rev app stack_at]; eauto 10.
Qed.

Section Theorems.
Context {OS : Type}.
Variable os_gt os_ge : OS -> OS -> bool.
Variable INITIAL illegal_since : OS.
Variable nfc : str -> str.
Notation token := (token OS).
Notation illegal := (illegal OS illegal_since).
Notation munch := (munch OS illegal_since).
Notation encode_loop := (encode_loop OS os_gt illegal_since).
Notation encode_tokens := (encode_tokens OS os_gt INITIAL illegal_since nfc).
Notation py_max := (py_max OS os_gt).
Variable ks : list token.
Notation ps := (pairs_of ks).
Notation tr := (from_tokens ks).

Lemma rule_pick p st stack s n : stack_at p (st :: stack) ->
  pick (munches_max (fst st)) (narrow (is_punct (hd 0 s)) (lens ks s)) = Some n <-> rule ps p s n.
Proof.
  intros H. assert (L : forall n, pick true (narrow (is_punct (hd 0 s)) (lens ks s)) = Some n <-> longest ps s n).
  { intros m. symmetry. apply (pick_choice os_gt illegal_since ks MaxMode (longest ps) (fun s n H => pick_longest os_gt illegal_since ks s _ n H) (fun s n m => longest_unique os_gt illegal_since ks s n m)).
    intros s0 n0 (A & _). exact A. }
  assert (Sh : forall n, pick false (narrow (is_punct (hd 0 s)) (lens ks s)) = Some n <-> short_glyph ps s n).
  { intros m. symmetry. apply (pick_choice os_gt illegal_since ks MinMode (short_glyph ps) (fun s n H => pick_short os_gt illegal_since ks s n H) (fun s n m => short_unique os_gt illegal_since ks s n m)).
    intros s0 n0 A. unfold short_glyph in A. destruct (is_punct (hd 0 s0)); [|apply A]. destruct A as [((A & _) & _)|(x & _ & _ & A & _)]; exact A. }
  destruct p; cbn [stack_at rule] in *.
  - destruct H as (j & H). injection H as -> ->. apply L.
  - destruct H as (m & j & H). injection H as -> ->. apply Sh.
  - destruct H as (m & j & H). injection H as -> ->. apply L.
  - destruct H as (m & j & H). injection H as -> ->. apply L.
  - destruct H as (K & j & [-> | ->] & _ & H); injection H as -> ->; apply Sh.
Qed.
Lemma loop_smart fuel p stack s acc since zs sn : no_empty_name ks -> stack_at p stack -> (length s <= fuel)%nat ->
  encode_loop fuel tr stack s acc since = Some (EOk (rev acc ++ zs) sn) <->
  smart_cut illegal ps p s zs /\ sn = fold_left (fun m k => py_max (t_since k) m) zs since.
Proof.
  intros NE. revert p stack s acc since zs. induction fuel as [|fuel IH]; intros p stack s acc since zs ST L.
  - destruct s; [|cbn in L; lia]. cbn [M_Tok.encode_loop]. split.
    + intros H. injection H as H <-. rewrite <- (app_nil_r (rev acc)) in H at 1. apply app_inv_head in H. subst zs. split; [constructor|reflexivity].
    + intros (C & ->). inversion C; subst; [now rewrite app_nil_r|contradiction|].
      match goal with H : literal [] _ |- _ => destruct H as (q0 & _ & [(X & _)|(X & _)]); discriminate X end.
  - cbn [M_Tok.encode_loop]. destruct s as [|c s'].
    + split.
      * intros H. injection H as H <-. rewrite <- (app_nil_r (rev acc)) in H at 1. apply app_inv_head in H. subst zs. split; [constructor|reflexivity].
      * intros (C & ->). inversion C; subst; [now rewrite app_nil_r|contradiction|].
        match goal with H : literal [] _ |- _ => destruct H as (q0 & _ & [(X & _)|(X & _)]); discriminate X end.
    + set (s := c :: s') in *. destruct stack as [|st stack].
      { exfalso. destruct p; cbn [stack_at] in ST; [destruct ST as (? & ST)|destruct ST as (? & ? & ST)..|destruct ST as (? & ? & _ & _ & ST)]; discriminate ST. }
      destruct (literal_len s) as [n|] eqn:LL.
      * rewrite (munch_literal illegal_since ks st s n LL). pose proof (literal_len_some os_gt illegal_since s n LL) as (L1 & L2 & L3 & L4).
        assert (SL : starts_literal s) by (destruct L1 as (q & _ & [(X & _)|(X & _)]); [now left|now right]).
        destruct (fromhex (lstrip_ux (firstn n s))) as [bb|x] eqn:FH; cbn [rbind].
        -- assert (LN : (length (skipn n s) <= fuel)%nat).
           { rewrite L2 in L. rewrite app_length in L. unfold str, bytes in *. lia. }
           pose proof (proj1 (stack_step p st stack bb ST)) as ST'. split.
           ++ intros H. pose proof H as H'. apply loop_cut in H' as (zs' & E & _ & _). cbn [rev] in E. rewrite <- app_assoc in E. apply app_inv_head in E. subst zs. cbn [app] in *.
              replace (rev acc ++ illegal bb :: zs') with (rev (illegal bb :: acc) ++ zs') in H by (cbn [rev]; rewrite <- app_assoc; reflexivity).
              apply (IH (after p true bb)) in H as (C & ->); [|exact ST'|exact LN]. split; [|reflexivity]. eapply smart_literal; eauto.
           ++ intros (C & ->). inversion C as [?|? ? ? ? ? ? NS|p0 s0 q b0 r ks0 P1 P2 P3 P4]; subst; [contradiction|].
              destruct (L4 q r P1 P2) as (-> & ->). unfold literal_bytes in P3. rewrite FH in P3. injection P3 as <-.
              replace (rev acc ++ illegal bb :: ks0) with (rev (illegal bb :: acc) ++ ks0) by (cbn [rev]; rewrite <- app_assoc; reflexivity).
              apply (IH (after p true bb)); [exact ST'|exact LN|]. split; [assumption|reflexivity].
        -- split; [destruct x; discriminate|]. intros (C & ->). inversion C as [?|? ? ? ? ? ? NS|p0 s0 q b0 r ks0 P1 P2 P3 P4]; subst; [contradiction|].
           destruct (L4 q r P1 P2) as (-> & ->). unfold literal_bytes in P3. rewrite FH in P3. discriminate P3.
      * pose proof (munch_names os_gt illegal_since ks st s LL) as M. pose proof (proj1 (literal_len_none os_gt illegal_since s) LL) as NL.
        destruct (pick (munches_max (fst st)) (narrow (is_punct (hd 0 s)) (lens ks s))) as [n|] eqn:P.
        -- destruct M as (k & O & M). assert (LN : (length (skipn n s) <= fuel)%nat).
           { apply (munch_shrinks os_gt) in M; [lia|assumption|discriminate]. }
           pose proof (proj2 (stack_step p st stack (t_bits k) ST)) as ST'. rewrite M. split.
           ++ intros H. pose proof H as H'. apply loop_cut in H' as (zs' & E & _ & _). cbn [rev] in E. rewrite <- app_assoc in E. apply app_inv_head in E. subst zs. cbn [app] in *.
              replace (rev acc ++ k :: zs') with (rev (k :: acc) ++ zs') in H by (cbn [rev]; rewrite <- app_assoc; reflexivity).
              apply (IH (after p false (t_bits k))) in H as (C & ->); [|exact ST'|exact LN]. split; [|reflexivity].
              apply smart_name with (n := n); [discriminate|exact NL|now apply (rule_pick p st stack)|now apply named_owner|exact C].
           ++ intros (C & ->). inversion C as [?|p0 s0 n0 k0 ks0 NS NL' CH NA C'|p0 s0 q b0 r ks0 P1 P2 P3 P4]; subst.
              ** apply (rule_pick p st stack) in CH; [|exact ST]. rewrite P in CH. injection CH as <-. apply named_owner in NA. rewrite O in NA. injection NA as <-.
                 replace (rev acc ++ k :: ks0) with (rev (k :: acc) ++ ks0) by (cbn [rev]; rewrite <- app_assoc; reflexivity).
                 apply (IH (after p false (t_bits k))); [exact ST'|exact LN|]. split; [assumption|reflexivity].
              ** exfalso. apply NL. destruct P1 as (q0 & _ & [(X & _)|(X & _)]); [now left|now right].
        -- rewrite M. split; [discriminate|]. intros (C & ->). exfalso. inversion C as [?|p0 s0 n0 k0 ks0 NS NL' CH NA C'|p0 s0 q b0 r ks0 P1 P2 P3 P4]; subst.
           ++ apply (rule_pick p st stack) in CH; [|exact ST]. rewrite P in CH. discriminate CH.
           ++ apply NL. destruct P1 as (q0 & _ & [(X & _)|(X & _)]); [now left|now right].
Qed.

(** Smart mode gives exactly the tokens of the context-dependent cut. *)
Theorem C107_smart : forall s ts, no_empty_name ks ->
  (exists since, encode_tokens tr (s2l "smart") s = Ok (ts, since)) <->
  smart_cut illegal ps Outside (normalize nfc s) ts.
Proof.
  intros s ts NE. unfold M_Tok.encode_tokens. change (start_state (s2l "smart")) with (Some (SmartMode, 0)). cbv zeta.
  assert (ST : stack_at Outside [(SmartMode, 0)]) by (exists 0; reflexivity). split.
  - intros (since & H). destruct (encode_loop _ _ _ _ _ _) as [[ts' sn|r|r]|] eqn:E; try discriminate. injection H as <- <-.
    apply (loop_smart (length (normalize nfc s)) Outside [(SmartMode, 0)] (normalize nfc s) [] INITIAL ts' sn NE ST (le_n _)) in E.
    apply E.
  - intros C. exists (fold_left (fun m k => py_max (t_since k) m) ts INITIAL).
    pose proof (proj2 (loop_smart (length (normalize nfc s)) Outside [(SmartMode, 0)] (normalize nfc s) [] INITIAL ts _ NE ST (le_n _)) (conj C eq_refl)) as E.
    set (x := encode_loop _ _ _ _ _ _). assert (X : x = Some (EOk ts (fold_left (fun m k => py_max (t_since k) m) ts INITIAL))) by exact E.
    rewrite X. reflexivity.
Qed.
(** Without quotes, prgm, Send( and list markers smart mode is max mode. *)
Lemma outside_stays b : opener b = false -> forall w, after Outside w b = Outside.
Proof.
  intros H w. unfold opener in H. rewrite case42 in H. cbn [after]. rewrite case42.
  repeat match goal with |- context [if ?c then _ else _] => destruct c end; congruence.
Qed.
Theorem C107_plain : forall s ts, no_empty_name ks -> Forall (fun k => opener (t_bits k) = false) ts ->
  (exists since, encode_tokens tr (s2l "smart") s = Ok (ts, since)) <-> (exists since, encode_tokens tr (s2l "max") s = Ok (ts, since)).
Proof.
  intros s ts NE F. rewrite C107_smart by exact NE. rewrite (C45_max os_gt os_ge INITIAL illegal_since nfc ks s ts NE).
  generalize (normalize nfc s). clear s. induction F as [|k ts O F IH]; intros s.
  - split; intros C; inversion C; subst; constructor.
  - split; intros C; inversion C; subst.
    + eapply by_name; eauto. apply IH. rewrite <- (outside_stays _ O false). assumption.
    + eapply by_literal; eauto. apply IH. rewrite <- (outside_stays _ O true). assumption.
    + eapply smart_name; eauto. rewrite (outside_stays _ O). apply IH. assumption.
    + eapply smart_literal; eauto. rewrite (outside_stays b O). apply IH. assumption.
Qed.
(** The whole text after an opening quote with no closing quote, arrow or line
    break is read as in string mode. *)
Definition ends_string (b : bytes) : bool := match b with [42] | [4] | [63] => true | _ => false end.
Lemma string_stays b : ends_string b = false -> forall w, after InString w b = InString.
Proof.
  intros H w. unfold ends_string in H. rewrite case_end in H. cbn [after]. rewrite case_end.
  destruct (_ || _); congruence.
Qed.
Theorem C107_string : forall s ts, Forall (fun k => ends_string (t_bits k) = false) ts ->
  smart_cut illegal ps InString s ts <-> cut_by (short_glyph ps) illegal ps s ts.
Proof.
  intros s ts F. revert s. induction F as [|k ts O F IH]; intros s.
  - split; intros C; inversion C; subst; constructor.
  - split; intros C; inversion C; subst.
    + eapply by_name; eauto. apply IH. rewrite <- (string_stays _ O false). assumption.
    + eapply by_literal; eauto. apply IH. rewrite <- (string_stays _ O true). assumption.
    + eapply smart_name; eauto. rewrite (string_stays _ O). apply IH. assumption.
    + eapply smart_literal; eauto. rewrite (string_stays b O). apply IH. assumption.
Qed.
(** The tokens are determined: two cuts of the same text agree. *)
Theorem C107_unique : forall p s ts ts', smart_cut illegal ps p s ts -> smart_cut illegal ps p s ts' -> ts = ts'.
Proof.
  intros p s ts ts' C. revert ts'. induction C as [p|p s n k ks' NE NL R N C IH|p s q b r ks' L E B C IH]; intros ts' C'.
  - inversion C'; subst; [reflexivity|contradiction|].
    match goal with H : literal [] _ |- _ => destruct H as (q0 & _ & [(X & _)|(X & _)]); discriminate X end.
  - inversion C' as [?|p0 s0 n0 k0 ks0 NS NL' CH NA C0|p0 s0 q b0 r ks0 P1 P2 P3 P4]; subst; [contradiction| |].
    + assert (n0 = n) as ->.
      { destruct p; cbn [rule] in R, CH; (eapply longest_unique; eassumption) || (eapply short_unique; eassumption). }
      apply named_owner in N, NA. rewrite N in NA. injection NA as <-. f_equal. now apply IH.
    + exfalso. apply NL. destruct P1 as (q0 & _ & [(X & _)|(X & _)]); [now left|now right].
  - assert (SL : starts_literal s) by (destruct L as (q0 & _ & [(X & _)|(X & _)]); [now left|now right]).
    inversion C' as [?|p0 s0 n0 k0 ks0 NS NL' CH NA C0|p0 s0 q1 b0 r1 ks0 P1 P2 P3 P4]; subst.
    + exfalso. match goal with H : [] = _ |- _ => rewrite <- H in SL | H : _ = [] |- _ => rewrite H in SL end. destruct SL as [X|X]; discriminate X.
    + contradiction.
    + destruct (literal_len (q ++ r)) as [n|] eqn:LL; [|exfalso; apply (literal_len_none os_gt illegal_since (q ++ r)) in LL; contradiction].
      destruct (literal_len_some os_gt illegal_since (q ++ r) n LL) as (_ & _ & _ & U).
      destruct (U q r L eq_refl) as (Q1 & R1). destruct (U q1 r1 P1 P2) as (Q2 & R2).
      assert (q1 = q) as -> by congruence. assert (r1 = r) as -> by congruence.
      unfold literal_bytes in *. assert (b0 = b) as -> by congruence. f_equal. now apply IH.
Qed.
End Theorems.

Print Assumptions C107_smart.
Print Assumptions C107_plain.
Print Assumptions C107_string.
Print Assumptions C107_unique.
(** Send( added to the sheet of the examples. *)
Definition kSend := tk [231] 0 "Send(".
Definition ky := kSend :: kz.
Definition enc1 := encode_tokens Z Z.gtb 0 0 (fun s => s) (from_tokens ky).
(** Long names outside; short ones in strings, which the arrow and the line break
    end as the quote does; long ones in strings after Send( ; short ones in names. *)
Example C107_example :
  no_empty_name ky /\
  enc1 (s2l "smart") (s2l "AB""AB""AB") = Ok ([kAB; kQuote; kA; kB; kQuote; kAB], 7) /\
  enc1 (s2l "smart") (s2l """AB->AB") = Ok ([kQuote; kA; kB; kArrow; kAB], 7) /\
  enc1 (s2l "smart") (s2l """AB" ++ [10] ++ s2l "AB") = Ok ([kQuote; kA; kB; kLine; kAB], 7) /\
  enc1 (s2l "smart") (s2l "Send(""AB""AB") = Ok ([kSend; kQuote; kAB; kQuote; kAB], 7) /\
  enc1 (s2l "smart") (s2l "Send(AB""AB") = Ok ([kSend; kAB; kQuote; kA; kB], 7) /\
  enc1 (s2l "smart") (s2l "prgmAB-AB") = Ok ([kPrgm; kA; kB; kMinus; kAB], 7) /\
  enc1 (s2l "smart") (s2l "|LAB->AB") = Ok ([kList; kA; kB; kArrow; kAB], 7).
Proof.
  split.
  { intros k I J. cbn in I. repeat match goal with H : _ \/ _ |- _ => destruct H as [H|H] end; subst; try contradiction; cbn in J; destruct J as [J|[]]; discriminate J. }
  repeat split; vm_compute; reflexivity.
Qed.
Example C107_plain_example : enc1 (s2l "smart") (s2l "A->AB") = Ok ([kA; kArrow; kAB], 7) /\ enc1 (s2l "max") (s2l "A->AB") = Ok ([kA; kArrow; kAB], 7) /\
  Forall (fun k => opener (t_bits k) = false) [kA; kArrow; kAB].
Proof. split; [vm_compute; reflexivity|]. split; [vm_compute; reflexivity|]. repeat constructor. Qed.
Example C107_string_example : Forall (fun k => ends_string (t_bits k) = false) [kA; kPrgm; kB] /\
  enc1 (s2l "smart") (s2l """AprgmB") = Ok ([kQuote; kA; kPrgm; kB], 0) /\ enc1 (s2l "string") (s2l "AprgmB") = Ok ([kA; kPrgm; kB], 0).
Proof. split; [repeat constructor|]. split; vm_compute; reflexivity. Qed.
