(** Property theorems C40-C51: the decoder, the trie, the encoder, and the
    tokenized entries.  The sheet, the type of OS versions with its comparisons,
    and NFC normalisation are arbitrary throughout. *)
From Verif Require Import L_Base M_Data M_Flags M_Models M_Class M_Var M_Tok S_Data L_Data S_Var L_Models P_Models L_Var L_VarFile P_Var S_Tok L_Tok L_Encode.
From Coq Require Import Sorting.Sorted.

(** Concrete sheet for examples and witnesses; versions are integers. *)
Definition tk (b : bytes) (since : Z) (n : string) : token Z := Tok b since [s2l n] (s2l n).
Definition kA := tk [65] 0 "A".
Definition kB := tk [66] 0 "B".
Definition kAB := tk [187; 1] 7 "AB".
Definition kPrgm := tk [95] 0 "prgm".
Definition kList := tk [235] 0 "|L".
Definition kQuote : token Z := Tok [42] 0 [[34]] [34].
Definition kArrow := tk [4] 0 "->".
Definition kMinus := tk [113] 0 "-".
Definition kColon := tk [62] 0 ":".
Definition kLine : token Z := Tok [63] 0 [[10]] [10].
Definition kClock := tk [239; 0] 4 "setDate(".
Definition kOdd := tk [187; 239] 2 "odd".
Definition kDms := tk [1] 0 ">DMS".
Definition kz := [kA; kB; kAB; kPrgm; kList; kQuote; kArrow; kMinus; kColon; kLine; kClock; kOdd; kDms].
Definition sheet0 (b : bytes) : option (token Z) := find (fun k => leqb (t_bits k) b) kz.
Definition dec0 := decode Z Z.gtb 0 0 sheet0.
Definition enc0 := encode_tokens Z Z.gtb 0 0 (fun s => s) (from_tokens kz).
Lemma sheet0_ok : sheet_ok sheet0.
Proof.
  intros b t H. unfold sheet0 in H. apply find_some in H as (_ & H). now apply leqb_spec in H.
Qed.
Lemma sheet0_cases b t : sheet0 b = Some t -> In t kz /\ t_bits t = b.
Proof. intros H. split; [now apply find_some in H|now apply sheet0_ok]. Qed.
Lemma sheet0_prefix_free : prefix_free sheet0.
Proof.
  split.
  - intros b t H. apply sheet0_cases in H as (I & <-). cbn in I.
    repeat match goal with H : _ \/ _ |- _ => destruct H as [H|H] end; subst; try contradiction; cbn; (split; [lia|lia]).
  - intros a b t u H G. apply sheet0_cases in H as (I & E). apply sheet0_cases in G as (J & F). cbn in I, J.
    repeat match goal with H : _ \/ _ |- _ => destruct H as [H|H] end; subst; try contradiction; cbn in E, F; try discriminate; congruence.
Qed.
Lemma kz_on_sheet : Forall (on_sheet sheet0) kz.
Proof. unfold on_sheet. repeat constructor. Qed.
Lemma kz_no_empty : no_empty_name kz.
Proof.
  intros k I J. cbn in I. repeat match goal with H : _ \/ _ |- _ => destruct H as [H|H] end; subst; try contradiction; cbn in J; destruct J as [J|[]]; discriminate J.
Qed.
Lemma ranked_Z : ranked Z.gtb (fun x => x).
Proof. intros a b. lia. Qed.

Section Theorems.
Context {OS : Type}.
Variable os_gt os_ge : OS -> OS -> bool.
Variable INITIAL illegal_since : OS.
Variable nfc : str -> str.
Notation token := (token OS).
Notation illegal := (illegal OS illegal_since).
Notation decode := (decode OS os_gt INITIAL illegal_since).
Notation munch := (munch OS illegal_since).
Notation encode_loop := (encode_loop OS os_gt illegal_since).
Notation encode_tokens := (encode_tokens OS os_gt INITIAL illegal_since nfc).
Notation encode := (encode OS os_gt INITIAL illegal_since nfc).
Notation py_max := (py_max OS os_gt).

(** C40: decoding never raises, and keeps all bytes but a tail of NULs or one
    dangling byte. *)
Theorem C40_prefix : forall sheet stream, sheet_ok sheet -> exists w ts since tail,
  decode sheet stream = (w, Ok (ts, since)) /\ stream = concat (map t_bits ts) ++ tail /\
  (Forall (fun b => b = 0) tail \/ exists b, tail = [b] /\ b <> 0 /\ sheet [b] = None).
Proof.
  intros sheet stream OK. destruct (decode_parse os_gt INITIAL illegal_since sheet stream) as (n & D & _).
  destruct (parse_bytes_aux os_gt illegal_since sheet (length stream) OK stream) as (tail & E & T); [lia|].
  exists (repeat WDecode n), (map snd (parse illegal_since sheet stream)), (sinces os_gt (parse illegal_since sheet stream) INITIAL), tail.
  split; [exact D|]. split; [|exact T]. rewrite map_map. exact E.
Qed.
(** Each decoded token is on the sheet or stands for bytes that are not, and
    decoding is silent exactly when all are on the sheet. *)
Theorem C40_tokens : forall sheet stream w ts since, sheet_ok sheet -> sheet [0] = None ->
  decode sheet stream = (w, Ok (ts, since)) ->
  Forall (fun t => on_sheet sheet t \/ exists b, t = illegal b /\ sheet b = None /\ (b = [0] \/ length b = 2%nat)) ts /\
  (w = [] <-> Forall (on_sheet sheet) ts).
Proof.
  intros sheet stream w ts since OK N0 H. destruct (decode_parse os_gt INITIAL illegal_since sheet stream) as (n & D & C).
  rewrite D in H. injection H as <- <- <-. pose proof (parse_flags_aux os_gt illegal_since sheet (length stream) stream (le_n _)) as F.
  assert (W : repeat WDecode n = [] <-> n = 0%nat) by (destruct n; cbn; split; congruence).
  rewrite W, C. clear W C D. revert F. generalize (parse illegal_since sheet stream). intros l F.
  induction F as [|(b, t) l P F IH]; [split; [constructor|split; [constructor|reflexivity]]|].
  destruct IH as (I1 & I2). cbn [map snd fst] in *. unfold clean in *. cbn [forallb fst].
  destruct b.
  - destruct P as (b & P & _). assert (on_sheet sheet t) by (unfold on_sheet; now rewrite (OK _ _ P)).
    split; [constructor; [now left|exact I1]|]. cbn [andb]. rewrite I2. split; [constructor; auto|intros X; now inversion X].
  - cbn [andb]. assert (Q : exists b, t = illegal b /\ sheet b = None /\ (b = [0] \/ length b = 2%nat)).
    { destruct P as [->|(b & c & -> & _ & _ & S)]; eexists; split; [reflexivity|auto|reflexivity|]. split; [exact S|right; reflexivity]. }
    split; [constructor; [now right|exact I1]|]. split; [discriminate|]. intros X. inversion X as [|? ? Y]; subst.
    destruct Q as (b & -> & S & _). unfold on_sheet in Y. cbn in Y. congruence.
Qed.

(** C41: decoding inverts concatenation. *)
Theorem C41_decode_concat : forall sheet ts, prefix_free sheet -> Forall (on_sheet sheet) ts ->
  exists since, decode sheet (concat (map t_bits ts)) = ([], Ok (ts, since)) /\
    forall rank, ranked os_gt rank -> is_max rank INITIAL (map t_since ts) since.
Proof.
  intros sheet ts P F. destruct (decode_parse os_gt INITIAL illegal_since sheet (concat (map t_bits ts))) as (n & D & C).
  rewrite (parse_concat os_gt illegal_since sheet ts P F) in *. exists (sinces os_gt (map (fun t => (true, t)) ts) INITIAL). split.
  - rewrite D. assert (n = 0%nat) as ->. { apply C. unfold clean. clear. induction ts; [reflexivity|exact IHts]. }
    rewrite map_map. cbn [snd]. rewrite map_id. reflexivity.
  - intros rank R. now apply sinces_max.
Qed.

(** C42: matching finds exactly the names that start the text, longest first. *)
Theorem C42_sound_complete : forall (ks : list token) s k r,
  In (k, r) (trie_match (from_tokens ks) s) <-> exists n, s = n ++ r /\ named (pairs_of ks) n k.
Proof.
  intros ks s k r. rewrite trie_match_spec, in_flat_map. unfold hits. split.
  - intros (n & _ & H). rewrite lookup_from in H. destruct (owner _ (firstn n s)) as [k'|] eqn:E; [|destruct H].
    destruct H as [H|[]]. injection H as <- <-. exists (firstn n s). split; [symmetry; apply firstn_skipn|now apply named_owner].
  - intros (n & -> & N). exists (length n). split.
    + apply -> in_rev. apply in_seq. rewrite app_length. lia.
    + rewrite lookup_from, firstn_app, Nat.sub_diag, firstn_all, firstn_O, app_nil_r, skipn_app, Nat.sub_diag, skipn_all.
      apply named_owner in N. rewrite N. left. reflexivity.
Qed.
Theorem C42_longest_first : forall (ks : list token) s,
  StronglySorted (fun p q => (length (snd p) < length (snd q))%nat) (trie_match (from_tokens ks) s).
Proof.
  intros ks s. pose proof (match_hits ks s) as F. pose proof (lens_decr os_gt illegal_since ks s) as D.
  assert (L : Forall (fun n => (n <= length s)%nat) (lens ks s)) by (apply Forall_forall; intros n I; apply (lens_in os_gt illegal_since) in I; apply I).
  induction F as [|n p l m H F IH]; [constructor|]. destruct D as (D1 & D2). inversion L as [|? ? L1 L2]; subst. constructor; [auto|].
  clear IH D2 L. induction F as [|n' q l m H' F IH]; [constructor|].
  inversion D1; subst. inversion L2; subst. constructor; [|auto].
  destruct p, q, H as (_ & H), H' as (_ & H'). cbn in *. rewrite H, H'. rewrite !skipn_length. lia.
Qed.

(** C43: a successful encoding is a cut of the normalised text into names and
    byte literals; the data are the bytes of its tokens; the version is their
    maximum. *)
Theorem C43_cut : forall ks mode s ts since, encode_tokens (from_tokens ks) mode s = Ok (ts, since) ->
  cut illegal (pairs_of ks) (normalize nfc s) ts /\
  forall rank, ranked os_gt rank -> is_max rank INITIAL (map t_since ts) since.
Proof.
  intros ks mode s ts since H. unfold M_Tok.encode_tokens in H. destruct (start_state mode) as [st|]; [|discriminate].
  destruct (encode_loop _ _ _ _ _ _) as [[ts' sn|r|r]|] eqn:E; try discriminate. injection H as -> ->.
  apply loop_cut in E as (zs & -> & C & ->). cbn [rev app]. split; [exact C|]. intros rank R.
  pose proof (sinces_max os_gt rank zs INITIAL R) as M. unfold sinces in M.
  replace (fold_left _ zs INITIAL) with (fold_left (fun (s : OS) (p : bool * token) => if fst p then py_max (t_since (snd p)) s else s) (map (fun t => (true, t)) zs) INITIAL); [exact M|].
  clear. generalize INITIAL. induction zs as [|k zs IH]; intros i; [reflexivity|apply IH].
Qed.
Theorem C43_data : forall t mode s d since, encode t mode s = Ok (d, since) <->
  exists ts, encode_tokens t mode s = Ok (ts, since) /\ d = concat (map t_bits ts).
Proof.
  intros t mode s d since. unfold M_Tok.encode. destruct (encode_tokens t mode s) as [(ts, sn)|x]; cbn [rbind fst snd].
  - split; [intros H; injection H as <- <-; eauto|]. intros (ts' & H & ->). injection H as <- <-. reflexivity.
  - split; [discriminate|]. intros (ts & H & _). discriminate H.
Qed.
(** Encoding ends (the loop needs no more rounds than the text has characters),
    and can only fail with ValueError. *)
Theorem C43_terminates : forall ks mode s x, no_empty_name ks ->
  encode_tokens (from_tokens ks) mode s = Err x -> x = ValueError.
Proof.
  intros ks mode s x NE H. unfold M_Tok.encode_tokens in H. destruct (start_state mode) as [st|]; [|now injection H as <-].
  destruct (encode_loop _ _ _ _ _ _) as [[ts' sn|r|r]|] eqn:E; try discriminate; try (now injection H as <-).
  exfalso. revert E. apply loop_terminates; [exact NE|lia].
Qed.
(** A byte literal of hexadecimal digits gives exactly those bytes: the escaped
    form of one or two bytes is read back. *)
Lemma hex_val_digit d : 0 <= d < 16 -> hex_val (hex_digit d) = Some d /\ is_ws (hex_digit d) = false /\ hex_digit d <> 92 /\ hex_digit d <> 117 /\ hex_digit d <> 120.
Proof.
  intros H. unfold hex_digit, hex_val, is_ws. destruct (d <? 10) eqn:E.
  - replace ((48 <=? 48 + d) && (48 + d <=? 57)) with true by lia. split; [f_equal; lia|lia].
  - replace ((48 <=? 87 + d) && (87 + d <=? 57)) with false by lia. replace ((65 <=? 87 + d) && (87 + d <=? 70)) with false by lia.
    replace ((97 <=? 87 + d) && (87 + d <=? 102)) with true by lia. split; [f_equal; lia|lia].
Qed.
Lemma fromhex_str b : wf_bytes b -> fromhex (hex_str b) = Ok b.
Proof.
  induction 1 as [|x b X B IH]; [reflexivity|]. unfold is_byte in X. cbn [hex_str flat_map app]. fold (hex_str b). cbn [fromhex].
  destruct (hex_val_digit (x / 16)) as (V1 & W1 & _); [lia|]. destruct (hex_val_digit (x mod 16)) as (V2 & W2 & _); [lia|].
  rewrite W1, V1, V2, IH. cbn [rbind]. do 2 f_equal. lia.
Qed.
Theorem C43_escape : forall b, wf_bytes b -> (length b = 1%nat \/ length b = 2%nat) ->
  literal (escape b) (escape b) /\ literal_bytes (escape b) b /\
  forall ks st r, munch st (from_tokens ks) (escape b ++ r) = Ok (illegal b, r, next st b).
Proof.
  intros b W L.
  assert (F : lstrip_ux (escape b) = hex_str b).
  { unfold escape. cbn [app lstrip_ux]. change ((92 =? 92) || _ || _) with true. cbv iota.
    replace (((if Nat.eqb (length b) 1 then 120 else 117) =? 92) || ((if Nat.eqb (length b) 1 then 120 else 117) =? 117) || ((if Nat.eqb (length b) 1 then 120 else 117) =? 120)) with true
      by (destruct (Nat.eqb (length b) 1); reflexivity).
    destruct b as [|x b]; [destruct L; discriminate|]. inversion W as [|? ? X]; subst. unfold is_byte in X. cbn [hex_str flat_map app].
    destruct (hex_val_digit (x / 16)) as (_ & _ & N); [lia|]. cbn [lstrip_ux].
    replace ((hex_digit (x / 16) =? 92) || (hex_digit (x / 16) =? 117) || (hex_digit (x / 16) =? 120)) with false by lia. reflexivity. }
  assert (Q : forall r, exists n, literal_len (escape b ++ r) = Some n /\ n = length (escape b)).
  { intros r. destruct L as [L|L].
    - destruct b as [|x [|? ?]]; try discriminate L. exists 4%nat. split; reflexivity.
    - destruct b as [|x [|y [|? ?]]]; try discriminate L. exists 6%nat. split; reflexivity. }
  split; [|split].
  - destruct (Q []) as (n & Q1 & ->). rewrite app_nil_r in Q1. apply (literal_len_some os_gt illegal_since) in Q1 as (Q1 & _). now rewrite firstn_all in Q1.
  - unfold literal_bytes. rewrite F. now apply fromhex_str.
  - intros ks st r. destruct (Q r) as (n & Q1 & ->). rewrite (munch_literal _ ks _ _ _ Q1).
    rewrite firstn_app, Nat.sub_diag, firstn_all, firstn_O, app_nil_r, F, (fromhex_str b W). cbn [rbind].
    rewrite skipn_app, Nat.sub_diag, skipn_all. reflexivity.
Qed.

(** C44: the encoder's stack.  A run: the configurations (stack, remaining text)
    the loop goes through, with the tokens chosen. *)
Inductive run (t : trie OS) : nat -> list state * str -> list token -> list state * str -> Prop :=
| run_0 c : run t 0 c [] c
| run_S n st stack s k r ctx ts c : s <> [] -> munch st t s = Ok (k, r, ctx) ->
    run t n (rev ctx ++ stack, r) ts c -> run t (S n) (st :: stack, s) (k :: ts) c.
Theorem C44_runs : forall t n stack s ts stack' s' fuel acc since, run t n (stack, s) ts (stack', s') ->
  encode_loop (n + fuel) t stack s acc since =
  encode_loop fuel t stack' s' (rev ts ++ acc) (fold_left (fun m k => py_max (t_since k) m) ts since).
Proof.
  intros t n stack s ts stack' s' fuel acc since R. remember (stack, s) as c eqn:E. remember (stack', s') as c' eqn:E'.
  revert stack s E acc since. induction R as [c|n st stk s0 k r ctx ts c NE M R IH]; intros stack s E acc since.
  - rewrite E' in E. injection E as <- <-. reflexivity.
  - injection E as <- <-. cbn [plus M_Tok.encode_loop]. destruct s0 as [|x s0]; [contradiction|]. rewrite M.
    rewrite (IH E' _ _ eq_refl). cbn [rev fold_left]. rewrite <- app_assoc. reflexivity.
Qed.
Theorem C44_stack : forall ks mode st n s ts stack s', start_state mode = Some st ->
  run (from_tokens ks) n ([st], s) ts (stack, s') ->
  exists j, stack = [(fst st, j)] \/ exists c, stack = [c; (fst st, j)].
Proof.
  intros ks mode st n s ts stack s' S R.
  assert (G : good (fst st) [st]).
  { unfold start_state in S. repeat match type of S with (if ?c then _ else _) = _ => destruct c end; try discriminate S;
      injection S as <-; (split; [reflexivity|]); eexists; left; reflexivity. }
  enough (G' : good (fst st) stack) by (destruct G' as (_ & j & [->|(c & -> & _)]); exists j; eauto).
  revert G. generalize (fst st). intros b G. remember ([st], s) as c eqn:E. remember (stack, s') as c' eqn:E'.
  assert (G1 : good b (fst c)) by (subst c; exact G). clear G E. revert stack s' E'.
  induction R as [c|n0 st0 stk s0 k r ctx ts c NE M R IH]; intros stack s' E'.
  - subst c. exact G1.
  - apply (IH) with (s' := s'); [|exact E']. cbn [fst] in *. apply (munch_ctx os_gt) in M as (bs & [-> | ->]); apply (good_next b st0 stk bs G1).
Qed.
Theorem C44_never_exhausted : forall ks mode st fuel s acc since rest, start_state mode = Some st ->
  encode_loop fuel (from_tokens ks) [st] s acc since <> Some (EStack rest).
Proof.
  intros ks mode st fuel s acc since rest S. apply loop_no_stack with (b := fst st).
  unfold start_state in S. repeat match type of S with (if ?c then _ else _) = _ => destruct c end; try discriminate S;
      injection S as <-; (split; [reflexivity|]); eexists; left; reflexivity.
Qed.

(** C45: in max mode the tokens are exactly those of the longest-name cut; in
    string mode of the shortest-name cut (with the exception for punctuation). *)
Lemma plain_iff ks b (choice : str -> nat -> Prop) mode s ts : no_empty_name ks -> start_state mode = Some (b, 0) -> (b = MaxMode \/ b = MinMode) ->
  (forall s n, pick (munches_max b) (narrow (is_punct (hd 0 s)) (lens ks s)) = Some n -> choice s n) ->
  (forall s n m, choice s n -> choice s m -> n = m) -> (forall s n, choice s n -> name_len (pairs_of ks) s n) ->
  (exists since, encode_tokens (from_tokens ks) mode s = Ok (ts, since)) <-> cut_by choice illegal (pairs_of ks) (normalize nfc s) ts.
Proof.
  intros NE S B P U L. unfold M_Tok.encode_tokens. rewrite S. cbv zeta. split.
  - intros (since & H). destruct (encode_loop _ _ _ _ _ _) as [[ts' sn|r|r]|] eqn:E; try discriminate. injection H as <- <-.
    apply (loop_plain os_gt illegal_since ks b choice B P U L (length (normalize nfc s)) 0 (normalize nfc s) [] INITIAL ts' sn NE (le_n _)) in E.
    apply E.
  - intros C. exists (fold_left (fun m k => py_max (t_since k) m) ts INITIAL).
    pose proof (proj2 (loop_plain os_gt illegal_since ks b choice B P U L (length (normalize nfc s)) 0 (normalize nfc s) [] INITIAL ts _ NE (le_n _)) (conj C eq_refl)) as E.
    set (x := encode_loop _ _ _ _ _ _). assert (X : x = Some (EOk ts (fold_left (fun m k => py_max (t_since k) m) ts INITIAL))) by exact E.
    rewrite X. reflexivity.
Qed.
Theorem C45_max : forall ks s ts, no_empty_name ks ->
  (exists since, encode_tokens (from_tokens ks) (s2l "max") s = Ok (ts, since)) <->
  cut_by (longest (pairs_of ks)) illegal (pairs_of ks) (normalize nfc s) ts.
Proof.
  intros ks s ts NE. apply plain_iff with (b := MaxMode); [exact NE|reflexivity|now left| | |].
  - intros s0 n H. now apply (pick_longest os_gt illegal_since) in H.
  - intros s0 n m. apply longest_unique; assumption.
  - intros s0 n (H & _). exact H.
Qed.
Theorem C45_string : forall ks s ts, no_empty_name ks ->
  (exists since, encode_tokens (from_tokens ks) (s2l "string") s = Ok (ts, since)) <->
  cut_by (short_glyph (pairs_of ks)) illegal (pairs_of ks) (normalize nfc s) ts.
Proof.
  intros ks s ts NE. apply plain_iff with (b := MinMode); [exact NE|reflexivity|now right| | |].
  - intros s0 n H. now apply (pick_short os_gt illegal_since) in H.
  - intros s0 n m. apply short_unique; assumption.
  - intros s0 n H. unfold short_glyph in H. destruct (is_punct _); [|apply H]. destruct H as [((H & _) & _)|(n0 & _ & _ & H & _)]; exact H.
Qed.

(** C46: in a name context (kind [K]), [stays K n] says that the state on top
    stays of kind [K] for [n] more rounds without byte literals; the tokens of
    rounds 0..n are then munched minimally. *)
Fixpoint stays (t : trie OS) (K : kind) (n : nat) (stack : list state) (s : str) : Prop :=
  match stack with
  | [] => False
  | st :: stack' =>
      fst st = K /\
      match n with
      | O => True
      | S n => ~ starts_literal s /\ s <> [] /\ exists k r ctx, munch st t s = Ok (k, r, ctx) /\ stays t K n (rev ctx ++ stack') r
      end
  end.
Lemma stays_bound ks K lim n : max_length K = Some lim -> forall j b s, is_base (fst b) = true -> 0 <= j <= lim ->
  stays (from_tokens ks) K n [(K, j); b] s -> j + Z.of_nat n <= lim.
Proof.
  intros ML. assert (KN : K = KListName \/ K = KProgramName) by (destruct K; try discriminate ML; auto).
  induction n as [|n IH]; intros j b s B J H; [lia|]. cbn [stays] in H. destruct H as (_ & NL & NE & k & r & ctx & M & H).
  apply (literal_len_none os_gt illegal_since) in NL. pose proof (munch_names os_gt illegal_since ks (K, j) s NL) as Q.
  destruct (pick _ _) as [m|]; [|rewrite Q in M; discriminate M]. destruct Q as (k' & _ & Q). rewrite Q in M. injection M as <- <- <-.
  unfold ctx_of in H. cbn [fst snd] in H. rewrite ML in H.
  assert (X : forall r, ~ stays (from_tokens ks) K n [b] r).
  { intros r0 X. destruct n; cbn [stays] in X; destruct X as (X & _); destruct KN as [-> | ->]; rewrite X in B; discriminate B. }
  destruct (Z.eqb_spec j lim) as [->|N]; [exfalso; eapply X; exact H|].
  assert (C : rev (next (K, j) (t_bits k')) = [] \/ rev (next (K, j) (t_bits k')) = [(K, j + 1)]).
  { destruct KN as [-> | ->]; unfold next, line_next; cbn [fst snd];
      repeat match goal with |- context [if ?c then _ else _] => destruct c end; auto. }
  destruct C as [C|C]; rewrite C in H; cbn [app] in H; [exfalso; eapply X; exact H|]. apply IH in H; [lia|assumption|lia].
Qed.
Theorem C46_program_bound : forall ks n j s, stays (from_tokens ks) KProgramName n [(KProgramName, 0); (SmartMode, j)] s -> (n < 9)%nat.
Proof. intros ks n j s H. apply (stays_bound ks KProgramName 8) in H; [lia|reflexivity|reflexivity|lia]. Qed.
Theorem C46_list_bound : forall ks n j s, stays (from_tokens ks) KListName n [(KListName, 0); (SmartMode, j)] s -> (n < 6)%nat.
Proof. intros ks n j s H. apply (stays_bound ks KListName 5) in H; [lia|reflexivity|reflexivity|lia]. Qed.

(** C47: decoding the data of an encoded text gives the tokens back, with the
    same version. *)
Lemma named_in ks n (k : token) : named (pairs_of ks) n k -> In k ks.
Proof.
  intros (a & b & E & _). assert (I : In (n, k) (pairs_of ks)) by (rewrite E; apply in_or_app; right; now left).
  unfold pairs_of in I. apply in_flat_map in I as (k' & I1 & I2). apply in_map_iff in I2 as (n' & I2 & _). injection I2 as _ <-. exact I1.
Qed.
Lemma cut_plain ks s ts : ~ In 92 s -> cut illegal (pairs_of ks) s ts -> Forall (fun k => In k ks) ts.
Proof.
  intros N C. induction C as [|s n k r ts NL E NA C IH|s p b r ts L E LB C IH]; [constructor| |].
  - constructor; [now apply named_in in NA|]. apply IH. intros I. apply N. rewrite E. apply in_or_app. now right.
  - exfalso. apply N. destruct L as (q & _ & [(X & _)|(X & _)]); destruct s; try discriminate X; injection X as X _; left; exact X.
Qed.
Theorem C47_decode_encode : forall ks sheet mode s d since, prefix_free sheet -> Forall (on_sheet sheet) ks ->
  ~ In 92 (normalize nfc s) -> encode (from_tokens ks) mode s = Ok (d, since) ->
  exists ts, encode_tokens (from_tokens ks) mode s = Ok (ts, since) /\ Forall (fun k => In k ks) ts /\
    decode sheet d = ([], Ok (ts, since)).
Proof.
  intros ks sheet mode s d since P F N H. apply C43_data in H as (ts & H & ->). exists ts. split; [exact H|].
  unfold M_Tok.encode_tokens in H. destruct (start_state mode) as [st|]; [|discriminate].
  destruct (encode_loop _ _ _ _ _ _) as [[ts' sn|r|r]|] eqn:E; try discriminate. injection H as <- <-.
  apply loop_cut in E as (zs & -> & C & ->). cbn [rev app] in *. apply cut_plain in C; [|exact N]. split; [exact C|].
  destruct (decode_parse os_gt INITIAL illegal_since sheet (concat (map t_bits zs))) as (n & D & Cl).
  assert (Z : Forall (on_sheet sheet) zs) by (eapply Forall_impl; [|exact C]; intros k I; rewrite Forall_forall in F; now apply F).
  rewrite (parse_concat os_gt illegal_since sheet zs P Z) in *.
  rewrite D. assert (n = 0%nat) as ->. { apply Cl. unfold clean. clear. induction zs; [reflexivity|exact IHzs]. }
  rewrite map_map. cbn [snd repeat]. rewrite map_id. do 3 f_equal.
  clear. unfold sinces. generalize INITIAL. induction zs as [|k zs IH]; intros i; [reflexivity|apply IH].
Qed.

(** C48: lines.  Weaving the lines with the separators gives the tokens back,
    except for store arrows and quotes. *)
Fixpoint weave (ls : list (list token)) (seps : list token) : list token :=
  match ls, seps with
  | l :: ls, s :: seps => l ++ s :: weave ls seps
  | l :: _, [] => l
  | [], _ => []
  end.
Definition seps_of (ks : list token) : list token := map snd (filter separator (in_strings false ks)).
Lemma lines_loop_head ks : forall (b : bool) cur acc, exists l ls,
  lines_loop ks b cur acc = rev acc ++ (rev cur ++ l) :: ls /\
  length ls = length (filter separator (in_strings b ks)) /\
  weave (l :: ls) (map snd (filter separator (in_strings b ks))) = filter (fun k => negb (dropped k)) ks /\
  Forall (Forall (fun k => is_bits 63 k = false)) (l :: ls).
Proof.
  induction ks as [|k ks IH]; intros b cur acc.
  - exists [], []. cbn. rewrite app_nil_r. split; [reflexivity|]. split; [reflexivity|]. split; [reflexivity|repeat constructor].
  - cbn [lines_loop in_strings filter]. fold (is_bits 4 k) (is_bits 42 k) (is_bits 62 k) (is_bits 63 k).
    unfold separator, dropped in *. cbn [fst snd].
    assert (X : forall x y, x <> y -> is_bits x k = true -> is_bits y k = false).
    { intros x y N E. unfold is_bits in *. apply leqb_spec in E. apply leqb_false. rewrite E. intros F. now injection F. }
    destruct (is_bits 4 k) eqn:E4.
    { rewrite (X 4 42), (X 4 62), (X 4 63) by (lia || assumption). cbn [orb andb negb]. apply IH. }
    destruct (is_bits 42 k) eqn:E42.
    { rewrite (X 42 62), (X 42 63) by (lia || assumption). cbn [orb andb negb]. apply IH. }
    destruct (is_bits 62 k) eqn:E62.
    { rewrite (X 62 63) by (lia || assumption). cbn [orb andb negb]. destruct b; cbn [negb].
      - destruct (IH true (k :: cur) acc) as (l & ls & H1 & H2 & H3 & H4). exists (k :: l), ls. split; [rewrite H1; cbn [rev]; rewrite <- app_assoc; reflexivity|].
        split; [exact H2|]. split; [|inversion H4; subst; constructor; [constructor; [apply (X 62 63); [lia|assumption]|assumption]|assumption]].
        rewrite <- H3. destruct (map snd _); reflexivity.
      - destruct (IH false [] (rev cur :: acc)) as (l & ls & H1 & H2 & H3 & H4). exists [], (l :: ls). split; [rewrite H1; cbn [rev app]; rewrite app_nil_r, <- app_assoc; reflexivity|].
        cbn [length map snd]. split; [now rewrite H2|]. split; [|constructor; [constructor|assumption]]. rewrite <- H3. reflexivity. }
    destruct (is_bits 63 k) eqn:E63; cbn [orb andb negb].
    { destruct (IH false [] (rev cur :: acc)) as (l & ls & H1 & H2 & H3 & H4). exists [], (l :: ls). split; [rewrite H1; cbn [rev app]; rewrite app_nil_r, <- app_assoc; reflexivity|].
        cbn [length map snd]. split; [now rewrite H2|]. split; [|constructor; [constructor|assumption]]. rewrite <- H3. reflexivity. }
    destruct (IH b (k :: cur) acc) as (l & ls & H1 & H2 & H3 & H4). exists (k :: l), ls. split; [rewrite H1; cbn [rev]; rewrite <- app_assoc; reflexivity|].
    split; [exact H2|]. split; [|inversion H4; subst; constructor; [constructor; assumption|assumption]].
    rewrite <- H3. destruct (map snd _); reflexivity.
Qed.
Theorem C48_lines : forall ks, length (lines_of ks) = S (length (seps_of ks)) /\
  weave (lines_of ks) (seps_of ks) = filter (fun k => negb (dropped k)) ks /\
  Forall (Forall (fun k => is_bits 63 k = false)) (lines_of ks).
Proof.
  intros ks. unfold lines_of, seps_of. destruct (lines_loop_head ks false [] []) as (l & ls & H1 & H2 & H3 & H4).
  rewrite H1. cbn [rev app length]. rewrite map_length, H2. auto.
Qed.
Theorem C48_join_iff : forall ks, weave (lines_of ks) (seps_of ks) = ks <-> Forall (fun k => dropped k = false) ks.
Proof.
  intros ks. destruct (C48_lines ks) as (_ & -> & _). split.
  - intros H. rewrite <- H. apply Forall_forall. intros k I. apply filter_In in I as (_ & I). now apply negb_true_iff in I.
  - induction 1 as [|k ks D F IH]; [reflexivity|]. cbn [filter]. rewrite D. cbn [negb]. now rewrite IH.
Qed.
End Theorems.

Lemma starts_with_spec (p l : list Z) : starts_with p l = true <-> exists r, l = p ++ r.
Proof.
  revert l. induction p as [|x p IH]; intros l; cbn [starts_with]; [split; [eexists; reflexivity|reflexivity]|].
  destruct l as [|y l]; [split; [discriminate|intros (r & H); discriminate H]|].
  rewrite andb_true_iff, Z.eqb_eq, IH. split.
  - intros (-> & r & ->). exists r. reflexivity.
  - intros (r & H). injection H as -> ->. split; [reflexivity|exists r; reflexivity].
Qed.
Lemma infix_spec (p l : list Z) : infix p l = true <-> exists a b, l = a ++ p ++ b.
Proof.
  induction l as [|y l IH]; cbn [infix]; rewrite orb_true_iff, starts_with_spec.
  - split; [intros [(r & H)|H]; [exists [], r; exact H|discriminate]|]. intros (a & b & H). left. exists b. destruct a; [exact H|discriminate H].
  - rewrite IH. split.
    + intros [(r & H)|(a & b & H)]; [exists [], r; exact H|exists (y :: a), b; rewrite H; reflexivity].
    + intros (a & b & H). destruct a as [|z a]; [left; exists b; exact H|right]. injection H as _ H. exists a, b. exact H.
Qed.

Section Entries.
Context {OS : Type}.
Variable os_gt os_ge : OS -> OS -> bool.
Variable INITIAL illegal_since : OS.
Variable sheet : bytes -> option (token OS).
Variable os_of : model -> str -> OS.
Notation decode := (decode OS os_gt INITIAL illegal_since sheet).
Notation os_version := (os_version OS os_ge os_of).
Notation thresholds := (thresholds OS os_of).
Notation tok_version := (tok_version OS os_gt os_ge INITIAL illegal_since sheet os_of).
Notation get_min_os := (get_min_os OS os_gt INITIAL illegal_since sheet os_of).

(** C49: the version of token data.  [rank]: the order of OS versions; the
    thresholds of the table are assumed to come in that order. *)
Definition ge_ranked (rank : OS -> Z) : Prop := forall a b, os_ge a b = true <-> rank b <= rank a.
Definition table : list (model * string * Z) :=
  [(TI_84PCE, "5.3"%string, 12); (TI_84PCE, "5.2"%string, 11); (TI_84PCSE, "4.0"%string, 10); (TI_84P, "2.55"%string, 7);
   (TI_84P, "2.53"%string, 6); (TI_84P, "2.30"%string, 5); (TI_84P, "2.21"%string, 4); (TI_83P, "1.16"%string, 3); (TI_83P, "1.15"%string, 2); (TI_83P, "1.00"%string, 1)].
Definition table_rank (rank : OS -> Z) (p : model * string * Z) : Z := rank (os_of (fst (fst p)) (s2l (snd (fst p)))).
Definition table_sorted (rank : OS -> Z) : Prop := StronglySorted (fun p q => table_rank rank q <= table_rank rank p) table.
Lemma find_version (rank : OS -> Z) os (l : list (model * string * Z)) : ge_ranked rank ->
  StronglySorted (fun p q => table_rank rank q <= table_rank rank p) l -> StronglySorted (fun p q => snd q < snd p) l -> Forall (fun p => 0 < snd p) l ->
  let v := match find (fun p => os_ge os (fst p)) (map (fun p => (os_of (fst (fst p)) (s2l (snd (fst p))), snd p)) l) with Some (_, v) => v | None => 0 end in
  (v = 0 \/ In v (map snd l)) /\ forall p, In p l -> snd p <= v <-> table_rank rank p <= rank os.
Proof.
  intros R S V P. induction S as [|p l S IH H]; [split; [now left|intros p []]|]. inversion V as [|? ? V1 V2]; subst. inversion P as [|? ? P1 P2]; subst.
  cbn [map find fst]. destruct (os_ge os (os_of (fst (fst p)) (s2l (snd (fst p))))) eqn:E.
  - cbn. split; [right; now left|]. apply R in E. intros q [<-|I]; [split; intros; [exact E|lia]|].
    rewrite Forall_forall in H, V2. specialize (H q I). specialize (V2 q I). unfold table_rank in *. split; lia.
  - destruct (IH V1 P2) as (I1 & I2). cbv zeta in *. set (v := match find _ _ with Some (_, v) => v | None => 0 end) in *.
    split; [destruct I1; [now left|right; now right]|]. intros q [<-|I]; [|now apply I2].
    assert (~ rank (os_of (fst (fst p)) (s2l (snd (fst p)))) <= rank os). { intros X. apply R in X. congruence. }
    unfold table_rank. rewrite Forall_forall in V2. split; [|lia]. intros X. exfalso. destruct I1 as [->|I1]; [lia|].
    apply in_map_iff in I1 as (q & Q & I1). apply V2 in I1. lia.
Qed.
Theorem C49_thresholds : forall rank os, ge_ranked rank -> table_sorted rank ->
  (os_version os = 0 \/ In (os_version os) (map snd table)) /\
  forall p, In p table -> snd p <= os_version os <-> table_rank rank p <= rank os.
Proof.
  intros rank os R S. apply (find_version rank os table R S); repeat constructor; cbn; lia.
Qed.
Theorem C49_monotone : forall rank a b, ge_ranked rank -> table_sorted rank -> rank a <= rank b -> os_version a <= os_version b.
Proof.
  intros rank a b R S L. destruct (C49_thresholds rank a R S) as (A1 & A2). destruct (C49_thresholds rank b R S) as (B1 & B2).
  destruct A1 as [->|A1]; [destruct B1 as [->|B1]; [lia|]; cbn in B1; lia|].
  apply in_map_iff in A1 as (p & P & I). rewrite <- P. apply B2; [exact I|]. pose proof (proj1 (A2 p I)). lia.
Qed.
(** The version is that of the OS requirement, plus 0x20 exactly when the bytes
    of a clock token occur anywhere in the data. *)
Definition clock (d : bytes) : Prop := exists x p q, In x [0; 1; 2; 3; 4; 7; 8; 9; 10; 11; 12; 13; 14; 15; 16] /\ d = p ++ [239; x] ++ q.
Lemma clock_spec d : existsb (fun t => infix t d) clock_tokens = true <-> clock d.
Proof.
  unfold clock_tokens. rewrite existsb_exists. split.
  - intros (t & I & H). apply in_map_iff in I as (x & <- & I). apply infix_spec in H as (a & b & H). exists x, a, b. auto.
  - intros (x & p & q & I & H). exists [239; x]. split; [apply in_map_iff; eauto|]. apply infix_spec. eauto.
Qed.
Theorem C49_clock : forall e d, d <> [] -> is_tokenized (e_cls e) = true ->
  exists w ts os, decode d = (w, Ok (ts, os)) /\
    (clock d -> tok_version e (Some d) = (w, Ok (os_version os + 32))) /\
    (~ clock d -> tok_version e (Some d) = (w, Ok (os_version os))).
Proof.
  intros e d N T. destruct (decode_parse os_gt INITIAL illegal_since sheet d) as (n & D & _). do 3 eexists. split; [exact D|].
  unfold M_Tok.tok_version, M_Tok.get_min_os, or_data. rewrite T. destruct d as [|x d]; [contradiction|]. rewrite D.
  cbn [obind oret fst snd app]. rewrite ?app_nil_r. split; intros C.
  - apply clock_spec in C. rewrite C. reflexivity.
  - destruct (existsb _ _) eqn:E; [exfalso; apply C, clock_spec, E|reflexivity].
Qed.
Lemma tok_version_total e arg : exists w v, tok_version e arg = (w, Ok v) /\ (In v [0; 1; 2; 3; 4; 5; 6; 7; 10; 11; 12] \/ In (v - 32) [0; 1; 2; 3; 4; 5; 6; 7; 10; 11; 12]).
Proof.
  assert (M : exists w os, get_min_os e arg = (w, Ok os)).
  { unfold M_Tok.get_min_os. destruct (is_tokenized (e_cls e)).
    - destruct (decode_parse os_gt INITIAL illegal_since sheet (or_data e arg)) as (n & D & _). rewrite D. cbn. eauto.
    - destruct (map snd _); eexists; eexists; reflexivity. }
  destruct M as (w & os & M). unfold M_Tok.tok_version. rewrite M. cbn [obind oret app].
  assert (V : In (os_version os) [0; 1; 2; 3; 4; 5; 6; 7; 10; 11; 12]).
  { unfold M_Tok.os_version, M_Tok.thresholds. cbn [find fst].
    repeat match goal with |- context [if os_ge ?a ?b then _ else _] => destruct (os_ge a b) end; cbn; lia. }
  eexists; eexists. split; [reflexivity|]. destruct (existsb _ _); [right|left; exact V].
  replace (os_version os + 32 - 32) with (os_version os) by lia. exact V.
Qed.
(** The version is recognised by the class, but for 0x07 and 0x27. *)
Theorem C49_recognised : forall e arg w v, tok_version e arg = (w, Ok v) -> In v tokenized_versions \/ v = 7 \/ v = 39.
Proof.
  intros e arg w v H. destruct (tok_version_total e arg) as (w' & v' & H' & I). rewrite H' in H. injection H as <- <-.
  unfold tokenized_versions. cbn in *. lia.
Qed.

(** C50: after [e.data = d] with nonempty [d], the version byte is the version
    of the data. *)
Lemma tok_version_arg e1 e2 d : d <> [] -> e_cls e1 = e_cls e2 -> tok_version e1 (Some d) = tok_version e2 (Some d).
Proof. intros N C. unfold M_Tok.tok_version, M_Tok.get_min_os, or_data. rewrite C. destruct d; [contradiction|reflexivity]. Qed.
Lemma tok_version_own e d : data e = d -> tok_version e None = tok_version e (Some d).
Proof. intros <-. unfold M_Tok.tok_version, M_Tok.get_min_os, or_data. destruct (data e); reflexivity. Qed.
Theorem C50_version_follows : forall e d w e' b, issubclass (e_cls e) KTokenized = true -> e_cls e <> KGraphedEquation ->
  d <> [] -> 2 <= zlen (b_data (e_data e)) -> e_version e = [b] -> is_byte b ->
  set_data tok_version e d = (w, Ok e') ->
  data e' = d /\ exists w' v, tok_version e' None = (w', Ok v) /\ version e' = Ok v.
Proof.
  intros e d w e' b S NG N L VB IB H.
  assert (SZ : issubclass (e_cls e) KSized = true) by (destruct (e_cls e); try discriminate S; reflexivity).
  assert (NI : e_cls e <> KImage) by (intros X; rewrite X in S; discriminate S).
  pose proof (set_data_sized tok_version e d w e' SZ NI NG L H) as (D & _ & C).
  assert (DD : data e' = d).
  { unfold data. rewrite C. destruct (sized_views _ SZ NI NG) as (-> & _). cbn [fst]. unfold view_get. rewrite D. cbn [v_start v_stop le16 app].
    rewrite py_slice_from by (rewrite ?zlen_cons; pose proof (zlen_nonneg d); lia). reflexivity. }
  split; [exact DD|]. rewrite (tok_version_own e' d DD). destruct (tok_version_total e' (Some d)) as (w' & v & V & I). exists w', v. split; [exact V|].
  unfold set_data in H. destruct (sized_views _ SZ NI NG) as (DV & LV). rewrite DV in H.
  apply obind_ok in H as (? & e1 & ? & E1 & H & _). apply set_length_ok in E1 as (_ & _ & -> & _); auto.
  apply obind_ok in H as (? & e2 & ? & E2 & H & _). apply obind_ok in E2 as (? & ver & ? & E3 & E2 & _).
  rewrite (tok_version_arg _ e' d N) in E3 by (cbn; now rewrite C). rewrite V in E3. injection E3 as _ <-.
  apply obind_ok in H as (? & bf & ? & _ & H & _). unfold oret in H. injection H as _ <-.
  assert (Q : e_version e2 = [v]).
  { unfold set_version in E2. apply obind_ok in E2 as (? & ? & ? & _ & E2 & _). apply obind_ok in E2 as (? & vb & ? & E4 & E2 & _).
    unfold oret in E2. injection E2 as _ <-. cbn [e_version with_version]. cbn [e_version with_data] in E4. rewrite VB in E4.
    destruct (bits_set_full v [b] b eq_refl IB) as (ws & B). rewrite B in E4. unfold section_set_raw, fit_section in E4. cbn in E4. injection E4 as _ <-.
    rewrite Z.mod_small by (cbn in I; lia). reflexivity. }
  apply version_byte with (v := v); [exact Q|]. unfold is_byte. cbn in I. lia.
Qed.

(** C51: protecting and unprotecting. *)
Notation prog_scan_of := (prog_scan_of OS os_gt INITIAL illegal_since sheet).
Notation protect := (protect OS os_gt INITIAL illegal_since sheet).
Notation unprotect := (unprotect OS os_gt INITIAL illegal_since sheet).
Definition asm_program (e : entry) : bool := is_asm prog_scan_of (data e).
Lemma retype e t n : e_type e = [t] -> is_byte t -> 0 <= n < 256 -> exists w, set_type_id e n = (w, Ok (with_type e [n])).
Proof.
  intros T B N. unfold set_type_id. rewrite T. destruct (bits_set_full n [t] t eq_refl B) as (ws & ->).
  rewrite Z.mod_small by lia. unfold section_set_raw, fit_section. cbn. eexists. reflexivity.
Qed.
Theorem C51_protect : forall e t, e_cls e = KProgram \/ e_cls e = KProtectedProgram -> e_type e = [t] -> is_byte t ->
  snd (protect e) = Ok (with_cls (with_type e [6]) (if asm_program e then KProtectedAsmProgram else KProtectedProgram)).
Proof.
  intros e t C T B. unfold M_Tok.protect. destruct (retype e t 6 T B) as (w & ->); [lia|]. cbn [obind].
  assert (E : coerce prog_scan_of (with_type e [6]) = oret (with_cls (with_type e [6]) (if asm_program e then KProtectedAsmProgram else KProtectedProgram))).
  { unfold coerce, coerce_own, coerce_program. cbn [e_cls with_type].
    assert (D : data (with_type e [6]) = data e) by reflexivity.
    destruct C as [C|C]; rewrite C; cbn -[is_asm data]; rewrite D; unfold asm_program; reflexivity. }
  rewrite E. reflexivity.
Qed.
Theorem C51_unprotect : forall e t, e_cls e = KProgram \/ e_cls e = KProtectedProgram -> e_type e = [t] -> is_byte t ->
  snd (unprotect e) = Ok (with_cls (with_type e [5]) (if asm_program e then KAsmProgram else KProgram)).
Proof.
  intros e t C T B. unfold M_Tok.unprotect. destruct (retype e t 5 T B) as (w & ->); [lia|]. cbn [obind].
  assert (E : coerce prog_scan_of (with_type e [5]) = oret (with_cls (with_type e [5]) (if asm_program e then KAsmProgram else KProgram))).
  { unfold coerce, coerce_own, coerce_program. cbn [e_cls with_type].
    assert (D : data (with_type e [5]) = data e) by reflexivity.
    destruct C as [C|C]; rewrite C; cbn -[is_asm data]; rewrite D; unfold asm_program; reflexivity. }
  rewrite E. reflexivity.
Qed.
(** They are inverse on tokenized programs. *)
Theorem C51_inverse : forall e, e_cls e = KProgram -> e_type e = [5] -> asm_program e = false ->
  snd (obind (protect e) unprotect) = Ok e.
Proof.
  intros e C T A. pose proof (C51_protect e 5 (or_introl C) T) as P. rewrite A in P. specialize (P ltac:(unfold is_byte; lia)).
  destruct (protect e) as (w & r). cbn [snd] in P. subst r. cbn [obind].
  pose proof (C51_unprotect (with_cls (with_type e [6]) KProtectedProgram) 6 (or_intror eq_refl) eq_refl) as U. specialize (U ltac:(unfold is_byte; lia)).
  assert (D : asm_program (with_cls (with_type e [6]) KProtectedProgram) = false). { rewrite <- A. unfold asm_program, data. cbn [e_cls with_cls with_type]. rewrite C. reflexivity. }
  rewrite D in U. destruct (unprotect _) as (w' & r'). cbn [snd] in *. rewrite U. f_equal. destruct e; cbn in *. now rewrite C, T.
Qed.
(** On objects of the assembly classes they always raise. *)
Theorem C51_asm_refuted : forall e t, e_cls e = KAsmProgram \/ e_cls e = KProtectedAsmProgram -> e_type e = [t] -> is_byte t ->
  snd (protect e) = Err UserWarningRaised /\ snd (unprotect e) = Err UserWarningRaised.
Proof.
  intros e t C T B. unfold M_Tok.protect, M_Tok.unprotect. destruct (retype e t 6 T B) as (w & ->); [lia|]. destruct (retype e t 5 T B) as (w' & ->); [lia|].
  cbn [obind]. unfold coerce, coerce_own, coerce_program. cbn [e_cls with_type]. destruct C as [-> | ->]; split; reflexivity.
Qed.
End Entries.

(** C80: tokens loaded into an entry are read back. *)
Section RoundTrip.
Context {OS : Type}.
Variable os_gt os_ge : OS -> OS -> bool.
Variable INITIAL illegal_since : OS.
Variable sheet : bytes -> option (token OS).
Variable os_of : model -> str -> OS.
Variable nfc : str -> str.
Notation load_tokens := (load_tokens OS os_gt os_ge INITIAL illegal_since sheet os_of).
Notation load_string := (load_string OS os_gt os_ge INITIAL illegal_since nfc sheet).
Notation tokens := (tokens OS os_gt INITIAL illegal_since sheet).
Notation tok_version := (tok_version OS os_gt os_ge INITIAL illegal_since sheet os_of).
Notation encode := (encode OS os_gt INITIAL illegal_since nfc).
Notation encode_tokens := (encode_tokens OS os_gt INITIAL illegal_since nfc).
Notation Name_set := (Name_set OS os_gt INITIAL illegal_since nfc).
Notation name_get := (name_get OS os_gt INITIAL illegal_since sheet).

Lemma set_data_reads e d w e' : issubclass (e_cls e) KTokenized = true -> e_cls e <> KGraphedEquation ->
  2 <= zlen (b_data (e_data e)) -> set_data tok_version e d = (w, Ok e') -> data e' = d.
Proof.
  intros S NG L H.
  assert (SZ : issubclass (e_cls e) KSized = true) by (destruct (e_cls e); try discriminate S; reflexivity).
  assert (NI : e_cls e <> KImage) by (intros X; rewrite X in S; discriminate S).
  pose proof (set_data_sized tok_version e d w e' SZ NI NG L H) as (D & _ & C).
  unfold data. rewrite C. destruct (sized_views _ SZ NI NG) as (-> & _). cbn [fst]. unfold view_get. rewrite D. cbn [v_start v_stop le16 app].
  rewrite py_slice_from by lia. reflexivity.
Qed.
Theorem C80_tokens_roundtrip : forall e ts w e', issubclass (e_cls e) KTokenized = true -> e_cls e <> KGraphedEquation ->
  2 <= zlen (b_data (e_data e)) -> prefix_free sheet -> Forall (on_sheet sheet) ts ->
  load_tokens e ts = (w, Ok e') -> tokens e' = oret ts.
Proof.
  intros e ts w e' S NG L P F H. unfold M_Tok.load_tokens in H. apply set_data_reads in H; [|assumption|assumption|assumption].
  unfold M_Tok.tokens. rewrite H. destruct (C41_decode_concat os_gt INITIAL illegal_since sheet ts P F) as (sn & -> & _). reflexivity.
Qed.
(** Text loaded into an entry is read back as the tokens the encoder chose. *)
Theorem C80_string_tokens : forall ks e s w e', issubclass (e_cls e) KTokenized = true -> e_cls e <> KGraphedEquation ->
  issubclass (e_cls e) KString = false -> 2 <= zlen (b_data (e_data e)) -> prefix_free sheet -> Forall (on_sheet sheet) ks ->
  ~ In 92 (normalize nfc s) -> load_string (from_tokens ks) os_of e s = (w, Ok e') ->
  exists ts since, encode_tokens (from_tokens ks) (s2l "smart") s = Ok (ts, since) /\ tokens e' = oret ts.
Proof.
  intros ks e s w e' S NG NS L P F N H. unfold M_Tok.load_string in H. rewrite NS in H.
  apply obind_ok in H as (? & ? & ? & _ & H & _). apply obind_ok in H as (? & (d, sn) & ? & E & H & _).
  unfold olift in E. injection E as _ E. apply (C47_decode_encode os_gt INITIAL illegal_since nfc ks sheet) in E as (ts & E & _ & D); [|assumption|assumption|assumption].
  exists ts, sn. split; [exact E|]. cbn [fst] in H. apply set_data_reads in H; [|assumption|assumption|assumption].
  unfold M_Tok.tokens. rewrite H, D. reflexivity.
Qed.

(** C81: names.  A name of at most eight bytes, stored NUL-padded, is read back
    as the display forms of its tokens. *)
Lemma parse_app ts r : prefix_free sheet -> Forall (on_sheet sheet) ts ->
  parse illegal_since sheet (concat (map t_bits ts) ++ r) = map (fun t => (true, t)) ts ++ parse illegal_since sheet r.
Proof.
  intros [K P]. induction 1 as [|t ts Ht H IH]; [reflexivity|]. cbn [map concat]. unfold on_sheet in Ht.
  destruct (K _ _ Ht) as ([L|L] & N0).
  - destruct (t_bits t) as [|a [|? ?]] eqn:E; try discriminate L. cbn [hd] in N0. cbn [app parse]. replace (a =? 0) with false by lia.
    rewrite Ht. f_equal. exact IH.
  - destruct (t_bits t) as [|a [|b [|? ?]]] eqn:E; try discriminate L. cbn [hd] in N0. cbn [app parse]. replace (a =? 0) with false by lia.
    destruct (sheet [a]) as [u|] eqn:Sa; [exfalso; eapply P; eassumption|]. rewrite Ht. f_equal. exact IH.
Qed.
Theorem C81_name_roundtrip : forall ks c s w d, prefix_free sheet -> Forall (on_sheet sheet) ks -> ~ In 92 (normalize nfc s) ->
  Name_set (from_tokens ks) c s = (w, Ok d) ->
  exists mode ts since, mode = (match leading_name_byte c with [] => s2l "string" | _ => s2l "max" end) /\
    encode_tokens (from_tokens ks) mode s = Ok (ts, since) /\ (zlen (concat (map t_bits ts)) <= 8 ->
      name_get (ljust 8 d) = oret (concat (map t_display ts))).
Proof.
  intros ks c s w d P F N H. unfold M_Tok.Name_set in H.
  apply obind_ok in H as (? & (b, sn) & ? & E & H & _). unfold olift in E. injection E as _ E.
  apply (C47_decode_encode os_gt INITIAL illegal_since nfc ks sheet) in E as E'; [|assumption|assumption|assumption]. destruct E' as (ts & T & I & _).
  apply C43_data in E as (ts' & T' & ->). rewrite T in T'. injection T' as <-.
  apply obind_ok in H as (? & ? & ? & _ & H & _). unfold oret in H. injection H as _ <-. cbn [fst].
  exists (match leading_name_byte c with [] => s2l "string" | _ => s2l "max" end), ts, sn. split; [reflexivity|]. split; [exact T|]. intros L.
  set (b := concat (map t_bits ts)) in *.
  assert (J : exists k, ljust 8 (ljust 8 (rstrip0 b)) = b ++ zeros k).
  { assert (L8 : (length b <= 8)%nat) by (unfold zlen in L; lia).
    pose proof (rstrip0_length b) as RL. rewrite ljust_id by (rewrite ljust_length by lia; lia).
    destruct (rstrip0_split b) as (n & B). exists (8 - length b)%nat. rewrite B at 2. rewrite <- app_assoc. unfold ljust, zeros. rewrite <- repeat_app. do 2 f_equal.
    rewrite B at 2. rewrite app_length, zeros_length. assert (length b = length (rstrip0 b) + n)%nat by (rewrite B at 1; rewrite app_length, zeros_length; reflexivity). lia. }
  destruct J as (k & J). unfold M_Tok.name_get. rewrite J.
  destruct (decode_parse os_gt INITIAL illegal_since sheet (b ++ zeros k)) as (n & D & C). rewrite D. unfold b in *.
  assert (Z : Forall (on_sheet sheet) ts) by (eapply Forall_impl; [|exact I]; intros q Q; rewrite Forall_forall in F; now apply F).
  rewrite (parse_app ts _ P Z) in *. rewrite parse_all_zeros in *. rewrite app_nil_r in *.
  assert (n = 0%nat) as ->. { apply C. unfold clean. clear. induction ts; [reflexivity|exact IHts]. }
  cbn [repeat obind oret app fst]. rewrite !map_map. reflexivity.
Qed.
End RoundTrip.

Print Assumptions C40_prefix.
Print Assumptions C40_tokens.
Example C40_example : sheet_ok sheet0 /\ sheet0 [0] = None /\
  dec0 [65; 187; 1; 0; 66; 187; 200; 0; 0] = ([WDecode; WDecode], Ok ([kA; kAB; illegal Z 0 [0]; kB; illegal Z 0 [187; 200]], 7)) /\
  dec0 [65; 187] = ([], Ok ([kA], 0)).
Proof. split; [exact sheet0_ok|]. split; [reflexivity|]. split; vm_compute; reflexivity. Qed.
Print Assumptions C41_decode_concat.
Example C41_example : prefix_free sheet0 /\ Forall (on_sheet sheet0) [kPrgm; kAB; kClock] /\
  dec0 [95; 187; 1; 239; 0] = ([], Ok ([kPrgm; kAB; kClock], 7)).
Proof. split; [exact sheet0_prefix_free|]. split; [repeat constructor|]. vm_compute. reflexivity. Qed.
(** Without prefix-freedom the claim fails. *)
Theorem C41_prefix_needed_refuted : exists (sheet : bytes -> option (token Z)) ts, sheet_ok sheet /\ Forall (on_sheet sheet) ts /\
  snd (decode Z Z.gtb 0 0 sheet (concat (map t_bits ts))) <> Ok (ts, 0).
Proof.
  exists (fun b => find (fun k => leqb (t_bits k) b) [kA; tk [65; 66] 0 "AB"; kB]), [tk [65; 66] 0 "AB"].
  split; [intros b t H; apply find_some in H as (_ & H); now apply leqb_spec in H|]. split; [repeat constructor|]. vm_compute. discriminate.
Qed.
Print Assumptions C41_prefix_needed_refuted.
Print Assumptions C42_sound_complete.
Print Assumptions C42_longest_first.
Example C42_example : trie_match (from_tokens kz) (s2l "ABA") = [(kAB, s2l "A"); (kA, s2l "BA")] /\ named (pairs_of kz) (s2l "AB") kAB.
Proof. split; [vm_compute; reflexivity|]. apply named_owner. vm_compute. reflexivity. Qed.
Print Assumptions C43_cut.
Print Assumptions C43_data.
Print Assumptions C43_terminates.
Print Assumptions C43_escape.
Example C43_example : no_empty_name kz /\ enc0 (s2l "max") (s2l "ABA\x3F->") = Ok ([kAB; kA; illegal Z 0 [63]; kArrow], 7) /\
  enc0 (s2l "smart") (s2l "A?") = Err ValueError /\ escape [187; 1] = [92; 117; 98; 98; 48; 49].
Proof. split; [exact kz_no_empty|]. split; [vm_compute; reflexivity|]. split; vm_compute; reflexivity. Qed.
(** An empty name makes the encoder loop for ever, whatever the fuel. *)
Theorem C43_empty_name_refuted : exists ks s, forall fuel, encode_loop Z Z.gtb 0 fuel (from_tokens ks) [(MaxMode, 0)] s [] 0 = None.
Proof.
  set (k := Tok [65] 0 [[]] (s2l "A")). exists [k], [66].
  enough (G : forall fuel j acc i, encode_loop Z Z.gtb 0 fuel (from_tokens [k]) [(MaxMode, j)] [66] acc i = None) by (intros fuel; apply G).
  induction fuel as [|fuel IH]; intros j acc i; [reflexivity|]. cbn [encode_loop].
  replace (munch Z 0 (MaxMode, j) (from_tokens [k]) [66]) with (@Ok (token Z * str * list state) (k, [66], [(MaxMode, j + 1)])) by reflexivity.
  apply IH.
Qed.
Print Assumptions C43_empty_name_refuted.
(** A byte literal need not give one or two bytes: this one gives none. *)
Theorem C43_literal_bytes_refuted : exists s ts, enc0 (s2l "max") s = Ok (ts, 0) /\ length s = 4%nat /\ concat (map t_bits ts) = [].
Proof. exists (s2l "\x\x"), [illegal Z 0 []]. split; [vm_compute; reflexivity|]. split; reflexivity. Qed.
Print Assumptions C43_literal_bytes_refuted.
Print Assumptions C44_runs.
Print Assumptions C44_stack.
Print Assumptions C44_never_exhausted.
Example C44_example : start_state (s2l "smart") = Some (SmartMode, 0) /\
  run 0 (from_tokens kz) 2 ([(SmartMode, 0)], s2l "prgmAB") [kPrgm; kA] ([(KProgramName, 1); (SmartMode, 0)], s2l "B").
Proof.
  split; [reflexivity|]. eapply run_S; [discriminate|vm_compute; reflexivity|]. eapply run_S; [discriminate|vm_compute; reflexivity|]. apply run_0.
Qed.
Print Assumptions C45_max.
Print Assumptions C45_string.
Example C45_example : enc0 (s2l "max") (s2l "->AB") = Ok ([kArrow; kAB], 7) /\ enc0 (s2l "string") (s2l "->AB") = Ok ([kArrow; kA; kB], 0) /\
  enc0 (s2l "string") (s2l "-A") = Ok ([kMinus; kA], 0).
Proof. split; [vm_compute; reflexivity|]. split; vm_compute; reflexivity. Qed.
Print Assumptions C46_program_bound.
Print Assumptions C46_list_bound.
Example C46_example : stays 0 (from_tokens kz) KProgramName 8 [(KProgramName, 0); (SmartMode, 0)] (s2l "ABABABABAB") /\
  ~ stays 0 (from_tokens kz) KProgramName 9 [(KProgramName, 0); (SmartMode, 0)] (s2l "ABABABABAB").
Proof.
  split; [|intros X; exact (Nat.lt_irrefl _ (C46_program_bound Z.gtb Z.geb 0 (fun s => s) kz 9 0 _ X))].
  do 8 (cbn [stays]; split; [reflexivity|]; split; [intros X; vm_compute in X; intuition congruence|]; split; [discriminate|];
    eexists _, _, _; split; [vm_compute; reflexivity|]; cbn [rev app]). split; reflexivity.
Qed.
(** The ninth token after prgm, and the sixth after the list marker, are still
    munched minimally: the longest name is not taken. *)
Theorem C46_limit_refuted : exists ts k rest ts' k' rest',
  enc0 (s2l "smart") (s2l "prgmABABABABABAB") = Ok (kPrgm :: ts ++ k :: rest, 7) /\ length ts = 8%nat /\ k = kA /\
    longest (pairs_of kz) (s2l "ABAB") 2 /\
  enc0 (s2l "smart") (s2l "|LBABABABAB") = Ok (kList :: ts' ++ k' :: rest', 7) /\ length ts' = 5%nat /\ k' = kA /\
    longest (pairs_of kz) (s2l "ABAB") 2.
Proof.
  assert (L : longest (pairs_of kz) (s2l "ABAB") 2).
  { eapply (pick_longest Z.gtb 0 kz _ false). vm_compute. reflexivity. }
  exists [kA; kB; kA; kB; kA; kB; kA; kB], kA, [kB; kAB], [kB; kA; kB; kA; kB], kA, [kB; kAB].
  repeat split; try (vm_compute; reflexivity); try apply L.
Qed.
Print Assumptions C46_limit_refuted.
(** A byte literal in the last place lifts the limit altogether. *)
Theorem C46_literal_refuted : exists ts, enc0 (s2l "smart") (s2l "prgmAAAAAAAA\x41ABABABABABAB") = Ok (kPrgm :: ts, 0) /\
  length ts = 21%nat /\ ~ In kAB ts.
Proof.
  eexists. split; [vm_compute; reflexivity|]. split; [reflexivity|]. cbn. intuition discriminate.
Qed.
Print Assumptions C46_literal_refuted.
Print Assumptions C47_decode_encode.
Example C47_example : prefix_free sheet0 /\ Forall (on_sheet sheet0) kz /\
  encode Z Z.gtb 0 0 (fun s => s) (from_tokens kz) (s2l "smart") (s2l "prgmABAB") = Ok ([95; 65; 66; 65; 66], 0) /\
  dec0 [95; 65; 66; 65; 66] = ([], Ok ([kPrgm; kA; kB; kA; kB], 0)).
Proof. split; [exact sheet0_prefix_free|]. split; [exact kz_on_sheet|]. split; vm_compute; reflexivity. Qed.
(** With byte literals the tokens are not preserved: two literals read as one token. *)
Theorem C47_literal_refuted : exists s d ts, encode Z Z.gtb 0 0 (fun s => s) (from_tokens kz) (s2l "max") s = Ok (d, 0) /\
  enc0 (s2l "max") s = Ok (ts, 0) /\ snd (dec0 d) = Ok ([kAB], 7) /\ length ts = 2%nat.
Proof. exists (s2l "\xbb\x01"), [187; 1], [illegal Z 0 [187]; illegal Z 0 [1]]. repeat split; vm_compute; reflexivity. Qed.
Print Assumptions C47_literal_refuted.
Print Assumptions C48_lines.
Print Assumptions C48_join_iff.
Example C48_example : lines_of [kA; kColon; kQuote; kB; kColon; kLine; kPrgm] = [[kA]; [kB; kColon]; [kPrgm]] /\
  seps_of [kA; kColon; kQuote; kB; kColon; kLine; kPrgm] = [kColon; kLine].
Proof. split; reflexivity. Qed.
Theorem C48_join_refuted : exists ks : list (token Z), weave (lines_of ks) (seps_of ks) <> ks.
Proof. exists [kA; kArrow; kB]. vm_compute. discriminate. Qed.
Print Assumptions C48_join_refuted.
Print Assumptions C49_thresholds.
Print Assumptions C49_monotone.
Print Assumptions C49_clock.
Print Assumptions C49_recognised.
(** Concrete thresholds in increasing order. *)
Definition os0 (m : model) (s : str) : Z :=
  match find (fun p => model_eqb (fst (fst p)) m && leqb (s2l (snd (fst p))) s) table with Some (_, v) => v | None => 0 end.
Definition tv0 := tok_version Z Z.gtb Z.geb 0 0 sheet0 os0.
Example C49_example : ge_ranked Z.geb (fun x => x) /\ table_sorted os0 (fun x => x) /\ tv0 hello (Some [187; 239]) = oret 2 /\ tv0 hello (Some [239; 0]) = oret 36.
Proof.
  split; [intros a b; lia|]. split; [repeat constructor; vm_compute; discriminate|]. split; vm_compute; reflexivity.
Qed.
(** Version 7 is computed but not recognised. *)
Theorem C49_versions_refuted : exists d v, tv0 hello (Some d) = oret v /\ ~ In v (versions KProgram).
Proof. exists [187; 1], 7. split; [vm_compute; reflexivity|]. cbn. intuition discriminate. Qed.
Print Assumptions C49_versions_refuted.
(** The search for clock tokens is not aligned to tokens: no token of this
    program is a clock token. *)
Theorem C49_clock_alignment_refuted : exists d ts, dec0 d = ([], Ok (ts, 2)) /\ Forall (fun k => hd 0 (t_bits k) <> 239) ts /\
  tv0 hello (Some d) = oret (2 + 32).
Proof.
  exists [187; 239; 1], [kOdd; kDms]. split; [vm_compute; reflexivity|]. split; [repeat constructor; discriminate|]. vm_compute. reflexivity.
Qed.
Print Assumptions C49_clock_alignment_refuted.
Print Assumptions C50_version_follows.
Example C50_example : exists e', set_data tv0 hello [187; 1] = oret e' /\ version e' = Ok 7 /\ version hello = Ok 4.
Proof. eexists. split; [vm_compute; reflexivity|]. split; reflexivity. Qed.
(** Emptying an entry keeps the version of the data it had. *)
Theorem C50_empty_refuted : exists e e', version e = Ok 7 /\ set_data tv0 e [] = oret e' /\ data e' = [] /\
  version e' = Ok 7 /\ tv0 e' None = oret 0.
Proof.
  exists (with_version (with_data hello (Buf true [2; 0; 187; 1])) [7]). eexists. split; [reflexivity|]. split; [vm_compute; reflexivity|].
  split; [reflexivity|]. split; [reflexivity|]. vm_compute. reflexivity.
Qed.
Print Assumptions C50_empty_refuted.
Print Assumptions C51_protect.
Print Assumptions C51_unprotect.
Print Assumptions C51_inverse.
Print Assumptions C51_asm_refuted.
Example C51_example : asm_program Z.gtb 0 0 sheet0 (prog (s2l "P") [65; 66]) = false /\
  snd (protect Z Z.gtb 0 0 sheet0 (prog (s2l "P") [65; 66])) = Ok (with_cls (with_type (prog (s2l "P") [65; 66]) [6]) KProtectedProgram).
Proof. split; vm_compute; reflexivity. Qed.
(** Protecting an assembly program held by a plain program object cannot be
    undone: the object changes class, and unprotecting it raises. *)
Theorem C51_inverse_refuted : exists e, e_cls e = KProgram /\ e_type e = [5] /\
  snd (obind (protect Z Z.gtb 0 0 sheet0 e) (unprotect Z Z.gtb 0 0 sheet0)) = Err UserWarningRaised.
Proof. exists (prog (s2l "P") [187; 109; 201]). split; [reflexivity|]. split; [reflexivity|]. vm_compute. reflexivity. Qed.
Print Assumptions C51_inverse_refuted.
Print Assumptions C80_tokens_roundtrip.
Print Assumptions C80_string_tokens.
Example C80_example : exists e', load_tokens Z Z.gtb Z.geb 0 0 sheet0 os0 hello [kPrgm; kAB] = oret e' /\ data e' = [95; 187; 1] /\
  snd (load_string Z Z.gtb Z.geb 0 0 (fun s => s) sheet0 (from_tokens kz) os0 hello (s2l "prgmAB")) = Ok (with_version (with_data hello (Buf true [3; 0; 95; 65; 66])) [0]).
Proof. eexists. split; [vm_compute; reflexivity|]. split; vm_compute; reflexivity. Qed.
Print Assumptions C81_name_roundtrip.
Example C81_example : Name_set Z Z.gtb 0 0 (fun s => s) (from_tokens kz) KProgram (s2l "ABA") = oret [65; 66; 65] /\
  name_get Z Z.gtb 0 0 sheet0 (ljust 8 [65; 66; 65]) = oret (s2l "ABA").
Proof. split; vm_compute; reflexivity. Qed.
