(** Property C150: tokens through their own text.  Reading the text of some
    tokens back gives the same bytes exactly if those tokens are the cut of that
    text; always where no name begins another, but not in general. *)
From Verif Require Import L_Base M_Data M_Flags M_Models M_Class M_Var M_Tok S_Data L_Data S_Var L_Models P_Models L_Var L_VarFile P_Var S_Tok S_Smart L_Tok L_Encode P_Tok P_Smart.

(** No name begins another. *)
Definition names_apart {OS} (ks : list (token OS)) : Prop :=
  forall k k' n r, In k ks -> In k' ks -> In n (t_names k) -> In (n ++ r) (t_names k') -> r = [].
(** The form shown is a name of the token, and of no other token. *)
Definition shown_by_name {OS} (ks : list (token OS)) : Prop :=
  forall k k', In k ks -> In k' ks -> In (t_display k) (t_names k') -> k = k'.
Definition shown_is_name {OS} (ks : list (token OS)) : Prop := forall k, In k ks -> In (t_display k) (t_names k).
Definition only_shown {OS} (ks : list (token OS)) : Prop := forall k n, In k ks -> In n (t_names k) -> n = t_display k.

Section Theorems.
Context {OS : Type}.
Variable os_gt os_ge : OS -> OS -> bool.
Variable INITIAL illegal_since : OS.
Variable nfc : str -> str.
Variable sheet : bytes -> option (token OS).
Variable ks : list (token OS).
Notation token := (token OS).
Notation illegal := (illegal OS illegal_since).
Notation decode := (decode OS os_gt INITIAL illegal_since).
Notation decode_str := (decode_str OS os_gt INITIAL illegal_since).
Notation encode_tokens := (encode_tokens OS os_gt INITIAL illegal_since nfc).
Notation encode := (encode OS os_gt INITIAL illegal_since nfc).
Notation tr := (from_tokens ks).
Notation ps := (pairs_of ks).
Definition text_of (ts : list token) : str := concat (map t_display ts).
Definition bytes_of (ts : list token) : bytes := concat (map t_bits ts).

Lemma on_sheet_all ts : Forall (on_sheet sheet) ks -> Forall (fun k => In k ks) ts -> Forall (on_sheet sheet) ts.
Proof. intros F I. eapply Forall_impl; [|exact I]. intros k J. rewrite Forall_forall in F. now apply F. Qed.
Lemma bytes_inj ts ts' : prefix_free sheet -> Forall (on_sheet sheet) ts -> Forall (on_sheet sheet) ts' ->
  bytes_of ts = bytes_of ts' -> ts = ts'.
Proof.
  intros P F F' E. destruct (C41_decode_concat os_gt INITIAL illegal_since sheet ts P F) as (s & D & _).
  destruct (C41_decode_concat os_gt INITIAL illegal_since sheet ts' P F') as (s' & D' & _).
  unfold bytes_of in E. rewrite E, D' in D. congruence.
Qed.
Lemma pairs_in n k : In (n, k) ps <-> In k ks /\ In n (t_names k).
Proof.
  unfold pairs_of. rewrite in_flat_map. split.
  - intros (k' & I & J). apply in_map_iff in J as (n' & E & J). injection E as -> ->. now split.
  - intros (I & J). exists k. split; [exact I|]. apply in_map_iff. now exists n.
Qed.
Lemma named_name n k : named ps n k -> In k ks /\ In n (t_names k).
Proof. intros (a & b & E & _). apply pairs_in. rewrite E. apply in_or_app. right. now left. Qed.
Lemma named_exists n k : In k ks -> In n (t_names k) -> exists k', named ps n k'.
Proof.
  intros I J. destruct (owner ps n) as [k'|] eqn:O; [exists k'; now apply named_owner|].
  exfalso. apply (proj1 (owner_none ps n) O k). apply pairs_in. now split.
Qed.

(** The text of tokens gives their bytes back exactly if the tokens are the cut
    of the text. *)
Theorem C150_iff : forall ts, prefix_free sheet -> Forall (on_sheet sheet) ks -> no_empty_name ks ->
  Forall (fun k => In k ks) ts -> ~ In 92 (normalize nfc (text_of ts)) ->
  ((exists since, encode tr (s2l "smart") (text_of ts) = Ok (bytes_of ts, since)) <->
   smart_cut illegal ps Outside (normalize nfc (text_of ts)) ts).
Proof.
  intros ts P F NE I NB. rewrite <- (C107_smart os_gt os_ge INITIAL illegal_since nfc ks (text_of ts) ts NE). split.
  - intros (since & E). exists since.
    destruct (C47_decode_encode os_gt INITIAL illegal_since nfc ks sheet _ _ _ _ P F NB E) as (ts' & T & J & D).
    destruct (C41_decode_concat os_gt INITIAL illegal_since sheet ts P (on_sheet_all ts F I)) as (s' & D' & _).
    unfold bytes_of in D. rewrite D' in D. congruence.
  - intros (since & E). exists since. apply C43_data. now exists ts.
Qed.

(** Where no name begins another, the names at the start of a text have one
    length. *)
Lemma one_length n k r m : names_apart ks -> In k ks -> In n (t_names k) -> name_len ps (n ++ r) m -> m = length n.
Proof.
  intros A I J (L & k' & N). apply named_name in N as (I' & J').
  destruct (Nat.le_gt_cases m (length n)) as [C|C].
  - rewrite firstn_app in J'. replace (m - length n)%nat with 0%nat in J' by lia. rewrite firstn_O, app_nil_r in J'.
    rewrite <- (firstn_skipn m n) in J. pose proof (A k' k _ _ I' I J' J) as E.
    pose proof (f_equal (@length Z) E) as E'. rewrite skipn_length in E'. cbn [length] in E'. lia.
  - rewrite firstn_app, firstn_all2 in J' by lia. pose proof (A k k' _ _ I I' J J') as E.
    pose proof (f_equal (@length Z) E) as E'. rewrite firstn_length in E'. rewrite app_length in L. cbn [length] in E'. lia.
Qed.
Lemma display_rule p k r : names_apart ks -> shown_is_name ks -> In k ks -> rule ps p (t_display k ++ r) (length (t_display k)).
Proof.
  intros A S I. pose proof (S k I) as J. destruct (named_exists _ _ I J) as (k' & N).
  assert (L : name_len ps (t_display k ++ r) (length (t_display k))).
  { split; [rewrite app_length; lia|]. exists k'. rewrite firstn_app, firstn_all, Nat.sub_diag, firstn_O, app_nil_r. exact N. }
  assert (U : forall m, name_len ps (t_display k ++ r) m -> m = length (t_display k)) by (intros m; now apply one_length with (k := k)).
  assert (X : longest ps (t_display k ++ r) (length (t_display k))) by (split; [exact L|]; intros m M; apply U in M; lia).
  assert (Y : short_glyph ps (t_display k ++ r) (length (t_display k))).
  { assert (Q : shortest ps (t_display k ++ r) (length (t_display k))) by (split; [exact L|]; intros m M; apply U in M; lia).
    unfold short_glyph. destruct (is_punct _); [left; now split|exact Q]. }
  destruct p; cbn [rule]; assumption.
Qed.
Lemma display_named k r : shown_by_name ks -> shown_is_name ks -> In k ks ->
  named ps (firstn (length (t_display k)) (t_display k ++ r)) k.
Proof.
  intros B S I. rewrite firstn_app, firstn_all, Nat.sub_diag, firstn_O, app_nil_r.
  destruct (named_exists _ _ I (S k I)) as (k' & N). pose proof (named_name _ _ N) as (I' & J').
  rewrite (B k k' I I' J') at 2. exact N.
Qed.
Lemma not_literal (s : str) : ~ In 92 s -> ~ starts_literal s.
Proof. intros N [L|L]; destruct s as [|c s]; try discriminate L; apply N; left; now injection L. Qed.
Lemma display_cut p ts : no_empty_name ks -> names_apart ks -> shown_by_name ks -> shown_is_name ks ->
  Forall (fun k => In k ks) ts -> ~ In 92 (text_of ts) -> smart_cut illegal ps p (text_of ts) ts.
Proof.
  intros NE A B S F. revert p. induction F as [|k ts I F IH]; intros p N; [constructor|].
  unfold text_of in *. cbn [map concat] in *. apply smart_name with (n := length (t_display k)).
  - intros E. apply app_eq_nil in E as (E & _). apply (NE k I). rewrite <- E. now apply S.
  - now apply not_literal.
  - now apply display_rule.
  - now apply display_named.
  - rewrite skipn_app, skipn_all, Nat.sub_diag, skipn_O. cbn [app]. apply IH. intros J. apply N. apply in_or_app. now right.
Qed.
(** Where no name begins another, every token is shown by a name of its own, and
    the text is left alone by normalisation, any tokens survive their text. *)
Theorem C150_apart : forall ts, no_empty_name ks -> names_apart ks -> shown_by_name ks -> shown_is_name ks ->
  Forall (fun k => In k ks) ts -> ~ In 92 (text_of ts) -> normalize nfc (text_of ts) = text_of ts ->
  exists since, encode_tokens tr (s2l "smart") (text_of ts) = Ok (ts, since) /\ encode tr (s2l "smart") (text_of ts) = Ok (bytes_of ts, since).
Proof.
  intros ts NE A B S F N Q. pose proof (display_cut Outside ts NE A B S F N) as C. rewrite <- Q in C.
  apply (C107_smart os_gt os_ge INITIAL illegal_since nfc ks (text_of ts) ts NE) in C as (since & C).
  exists since. split; [exact C|]. apply C43_data. now exists ts.
Qed.

(** Where each token has the one name it is shown by, the text of what was read
    is the text that was read, and one trip settles the bytes. *)
Lemma cut_text p s ts : only_shown ks -> ~ In 92 s -> smart_cut illegal ps p s ts -> text_of ts = s /\ Forall (fun k => In k ks) ts.
Proof.
  intros O N C. induction C as [p|p s n k ts NE NL R NA C IH|p s q b r ts L E B C IH].
  - now split; [|constructor].
  - apply named_name in NA as (I & J). destruct IH as (IH & F).
    + intros X. apply N. rewrite <- (firstn_skipn n s). apply in_or_app. now right.
    + split; [|now constructor]. unfold text_of in *. cbn [map concat]. rewrite IH, <- (O k _ I J). apply firstn_skipn.
  - exfalso. apply N. destruct L as (q' & _ & [(X & _)|(X & _)]); destruct s; try discriminate X; injection X as X _; left; exact X.
Qed.
Theorem C150_settled : forall s d since, prefix_free sheet -> Forall (on_sheet sheet) ks -> no_empty_name ks -> only_shown ks ->
  ~ In 92 (normalize nfc s) -> encode tr (s2l "smart") s = Ok (d, since) ->
  decode_str sheet d = ([], Ok (normalize nfc s)) /\
  (normalize nfc (normalize nfc s) = normalize nfc s -> encode tr (s2l "smart") (normalize nfc s) = Ok (d, since)).
Proof.
  intros s d since P F NE O N E.
  destruct (C47_decode_encode os_gt INITIAL illegal_since nfc ks sheet _ _ _ _ P F N E) as (ts & T & J & D).
  assert (C : smart_cut illegal ps Outside (normalize nfc s) ts).
  { apply (C107_smart os_gt os_ge INITIAL illegal_since nfc ks s ts NE). now exists since. }
  split.
  - unfold M_Tok.decode_str. rewrite D. unfold obind, oret. cbn [fst snd app]. do 2 f_equal. now apply (cut_text Outside).
  - intros Q. unfold M_Tok.encode, M_Tok.encode_tokens in *. cbv zeta in *. rewrite Q. exact E.
Qed.

(** For entries: loading the text of the tokens is then loading the tokens. *)
Theorem C150_entry : forall os_of e ts, no_empty_name ks -> is_tokenized (e_cls e) = true -> issubclass (e_cls e) KString = false ->
  smart_cut illegal ps Outside (normalize nfc (text_of ts)) ts ->
  load_string OS os_gt os_ge INITIAL illegal_since nfc sheet tr os_of e (text_of ts) =
  load_tokens OS os_gt os_ge INITIAL illegal_since sheet os_of e ts.
Proof.
  intros os_of e ts NE T NS C. apply (C107_smart os_gt os_ge INITIAL illegal_since nfc ks (text_of ts) ts NE) in C as (since & C).
  unfold M_Tok.load_string, M_Tok.load_tokens. rewrite T, NS, andb_false_r. cbn [owarn_if].
  unfold M_Tok.encode. rewrite C. cbn [rbind fst snd]. unfold olift. cbn [obind app fst oret].
  destruct (set_data _ e _) as (w, [x|x]); reflexivity.
Qed.
End Theorems.

Print Assumptions C150_iff.
Print Assumptions C150_entry.
Print Assumptions C150_apart.
Print Assumptions C150_settled.

(** Two tokens whose names make up the name of a third do not survive. *)
Theorem C150_refuted : exists ts, Forall (fun k => In k kz) ts /\ ~ In 92 (text_of ts) /\
  encode Z Z.gtb 0 0 (fun s => s) (from_tokens kz) (s2l "smart") (text_of ts) = Ok ([187; 1], 7) /\ bytes_of ts = [65; 66].
Proof.
  exists [kA; kB]. split; [repeat constructor; cbn; tauto|]. split; [cbn; lia|]. split; vm_compute; reflexivity.
Qed.
Print Assumptions C150_refuted.
(** With a name besides the one shown, the bytes may change on every trip:
    "sx" is read as two tokens shown as "stx", which is one token. *)
Definition kStat : token Z := Tok [67] 0 [s2l "st"; s2l "s"] (s2l "st").
Definition kx := tk [68] 0 "x".
Definition kStx := tk [69] 0 "stx".
Definition alias := [kStat; kx; kStx].
Definition alias_sheet (b : bytes) : option (token Z) := find (fun k => leqb (t_bits k) b) alias.
Theorem C150_alias_refuted : exists s d t,
  encode Z Z.gtb 0 0 (fun s => s) (from_tokens alias) (s2l "smart") s = Ok (d, 0) /\
  decode_str Z Z.gtb 0 0 alias_sheet d = ([], Ok t) /\ t <> s /\
  encode Z Z.gtb 0 0 (fun s => s) (from_tokens alias) (s2l "smart") t = Ok ([69], 0) /\ d <> [69].
Proof.
  exists (s2l "sx"), [67; 68], (s2l "stx"). repeat split; try (vm_compute; reflexivity); discriminate.
Qed.
Print Assumptions C150_alias_refuted.
(** A sheet without the tokens AB and -, on which no name begins another. *)
Definition plain_ks := [kA; kB; kPrgm; kList; kQuote; kArrow; kColon; kLine; kClock; kOdd; kDms].
Lemma plain_apart : names_apart plain_ks /\ shown_by_name plain_ks /\ shown_is_name plain_ks /\ only_shown plain_ks.
Proof.
  split; [|split; [|split]].
  - intros k k' n r I J N N'.
    assert (B : forallb (fun k => forallb (fun k' => forallb (fun n => forallb (fun m => negb (starts_with n m) || (length m =? length n)%nat)
                  (t_names k')) (t_names k)) plain_ks) plain_ks = true) by (vm_compute; reflexivity).
    rewrite forallb_forall in B. specialize (B k I). rewrite forallb_forall in B. specialize (B k' J).
    rewrite forallb_forall in B. specialize (B n N). rewrite forallb_forall in B. specialize (B (n ++ r) N').
    apply orb_true_iff in B as [B|B].
    + exfalso. apply negb_true_iff in B. assert (X : forall (a b : str), starts_with a (a ++ b) = true).
      { intros a b. induction a as [|c a IH]; [destruct b; reflexivity|cbn [app starts_with]]. rewrite Z.eqb_refl. exact IH. }
      rewrite X in B. discriminate B.
    + apply Nat.eqb_eq in B. rewrite app_length in B. destruct r; [reflexivity|cbn [length] in B; lia].
  - intros k k' I J N.
    assert (B : forallb (fun k => forallb (fun k' => forallb (fun n => negb (leqb (t_display k) n) || leqb (t_bits k) (t_bits k'))
                  (t_names k')) plain_ks) plain_ks = true) by (vm_compute; reflexivity).
    rewrite forallb_forall in B. specialize (B k I). rewrite forallb_forall in B. specialize (B k' J).
    rewrite forallb_forall in B. specialize (B _ N). rewrite leqb_refl in B. cbn [negb orb] in B. apply leqb_spec in B.
    assert (L : sheet0 (t_bits k) = Some k /\ sheet0 (t_bits k') = Some k').
    { assert (F : Forall (on_sheet sheet0) plain_ks) by (unfold on_sheet; repeat constructor).
      rewrite Forall_forall in F. split; now apply F. }
    destruct L as (L & L'). rewrite B in L. congruence.
  - intros k I. repeat (destruct I as [<-|I]; [left; reflexivity|]). destruct I.
  - intros k n I N. repeat (destruct I as [<-|I]; [destruct N as [<-|[]]; reflexivity|]). destruct I.
Qed.
Example C150_example :
  prefix_free sheet0 /\ Forall (on_sheet sheet0) kz /\ no_empty_name kz /\ only_shown kz /\
  smart_cut (illegal Z 0) (pairs_of kz) Outside (text_of [kPrgm; kA; kB; kLine; kAB]) [kPrgm; kA; kB; kLine; kAB] /\
  text_of [kPrgm; kA; kB; kLine; kAB] = s2l "prgmAB" ++ [10] ++ s2l "AB" /\
  (no_empty_name plain_ks /\ names_apart plain_ks /\ shown_by_name plain_ks /\ shown_is_name plain_ks).
Proof.
  split; [exact sheet0_prefix_free|]. split; [exact kz_on_sheet|]. split; [exact kz_no_empty|]. split.
  { intros k n I N. repeat (destruct I as [<-|I]; [destruct N as [<-|[]]; reflexivity|]). destruct I. }
  split.
  { apply (C107_smart Z.gtb Z.geb 0 0 (fun s => s) kz (text_of [kPrgm; kA; kB; kLine; kAB])); [exact kz_no_empty|].
    exists 7. vm_compute. reflexivity. }
  split; [reflexivity|]. destruct plain_apart as (A & B & C & _). split; [|now split].
  intros k I. apply kz_no_empty. cbn in I |- *. tauto.
Qed.
