(** C95, C96: names of lists, equations and strings. *)
From Verif Require Import L_Base M_Data M_Flags M_Models M_Class M_Var M_Tok S_Data L_Data S_Var L_Models P_Models L_Var L_VarFile P_Var S_Tok L_Tok L_Encode P_Tok M_Numeric M_Name.

(** ** C95: list names *)
Definition lower_case (c : Z) : Prop := 97 <= c <= 122.
(** Upper-casing leaves no small letter. *)
Definition uppercases (upper : Z -> str) : Prop := forall c x, In x (upper c) -> ~ lower_case x.
(** Upper case of ASCII, an instance. *)
Definition ascii_upper (c : Z) : str := [if (97 <=? c) && (c <=? 122) then c - 32 else c].
Lemma ascii_uppercases : uppercases ascii_upper.
Proof. intros c x [<-|[]]. unfold lower_case. destruct ((97 <=? c) && (c <=? 122)) eqn:E; lia. Qed.

Lemma in_replace_back c sub rep s : In c (str_replace sub rep s) -> In c s \/ In c rep.
Proof.
  unfold str_replace. generalize 0%nat. induction s as [|y s IH]; intros k I; cbn [str_replace_aux] in I; [destruct I|].
  destruct k as [|k].
  - destruct (starts_with sub (y :: s)).
    + apply in_app_or in I as [I|I]; [auto|]. apply IH in I as [I|I]; [left; now right|auto].
    + destruct I as [<-|I]; [left; now left|]. apply IH in I as [I|I]; [left; now right|auto].
  - apply IH in I as [I|I]; [left; now right|auto].
Qed.
Lemma varname_no_lower upper value x : uppercases upper -> In x (list_varname upper value) -> ~ lower_case x.
Proof.
  intros U I. unfold list_varname in I. apply in_replace_back in I as [I|I].
  - apply in_concat in I as (l & L & I). apply in_map_iff in L as (c & <- & _). eapply U; eassumption.
  - unfold lower_case. cbn in I. destruct I as [<-|[<-|[]]]; lia.
Qed.

(** The special case for IDList is never reached. *)
Theorem C95_idlist_dead : forall upper name_set value, uppercases upper ->
  list_name_set upper name_set value =
  do _ := owarn_if ((if starts_with (s2l "|L") (list_varname upper value) then 7 else 5) <? zlen (list_varname upper value)) WListName in
  name_set (list_varname upper value).
Proof.
  intros upper ns value U. unfold list_name_set. cbv zeta.
  destruct (infix (s2l "IDList") (list_varname upper value)) eqn:E; [|reflexivity].
  exfalso. apply infix_spec in E as (a & b & E). apply (varname_no_lower upper value 105 U).
  - rewrite E. apply in_or_app. right. apply in_or_app. left. cbn. auto 8.
  - unfold lower_case. lia.
Qed.
Print Assumptions C95_idlist_dead.
(** So the name IDList is stored as the text IDLIST, with a warning about its
    length. *)
Theorem C95_idlist_refuted : forall name_set,
  list_name_set ascii_upper name_set (s2l "IDList") = (do _ := owarn WListName in name_set (s2l "IDLIST")) /\
  exists data, list_name_get (fun d => oret d) data = oret (s2l "IDList") /\
    list_name_set ascii_upper (fun s => oret s) (s2l "IDList") <> oret (firstn 2 data).
Proof.
  intros ns. split.
  - rewrite C95_idlist_dead by exact ascii_uppercases. reflexivity.
  - exists (93 :: 64 :: zeros 6). split; [reflexivity|]. intros X. vm_compute in X. discriminate X.
Qed.
Print Assumptions C95_idlist_refuted.

Section Lists.
Context {OS : Type}.
Variable os_gt : OS -> OS -> bool.
Variable INITIAL illegal_since : OS.
Variable sheet : bytes -> option (token OS).
Variable nfc : str -> str.
Variable upper : Z -> str.
Hypothesis U : uppercases upper.
Notation Name_set := (Name_set OS os_gt INITIAL illegal_since nfc).
Notation name_get := (name_get OS os_gt INITIAL illegal_since sheet).
Notation encode_tokens := (encode_tokens OS os_gt INITIAL illegal_since nfc).
(** [Name.set] without an instance behaves as for a class without leading name
    byte. *)
Notation set_list t := (list_name_set upper (Name_set t KEntry)).
Notation get_list := (list_name_get name_get).

(** A list name of at most eight bytes is read back as the display forms of its
    tokens, unless the first byte is 5D and the second is 6 or more. *)
Theorem C95_roundtrip : forall ks s w d, prefix_free sheet -> Forall (on_sheet sheet) ks ->
  ~ In 92 (normalize nfc (list_varname upper s)) -> set_list (from_tokens ks) s = (w, Ok d) ->
  exists ts since, encode_tokens (from_tokens ks) (s2l "string") (list_varname upper s) = Ok (ts, since) /\
    (zlen (concat (map t_bits ts)) <= 8 -> (forall b r, d = 93 :: b :: r -> b < 6) -> 
     get_list (ljust 8 d) = oret (concat (map t_display ts))).
Proof.
  intros ks s w d P F N H. rewrite C95_idlist_dead in H by exact U.
  apply obind_ok in H as (? & ? & ? & _ & H & _).
  destruct (C81_name_roundtrip os_gt os_gt INITIAL illegal_since sheet (fun _ _ => INITIAL) nfc ks KEntry _ _ d P F N H) as (mode & ts & since & -> & E & R).
  exists ts, since. split; [exact E|]. intros L B. specialize (R L). unfold list_name_get.
  assert (J : exists a b r, ljust 8 d = a :: b :: r /\ (a = 93 -> b < 6)).
  { destruct d as [|a [|b d]]; cbn; do 3 eexists; (split; [reflexivity|]); try lia. intros ->. eapply B. reflexivity. }
  destruct J as (a & b & r & J & G). rewrite J in R |- *. destruct (a =? 93) eqn:A; [|exact R].
  replace (b <? 6) with true by (symmetry; apply Z.ltb_lt, G; lia). exact R.
Qed.
(** Nothing is checked about the bytes of a list name: lists declare no leading
    byte, and the inherited check is skipped since the instance is not passed on. *)
Theorem C95_unchecked : forall t s, ~ In WName (fst (set_list t s)).
Proof.
  intros t s. rewrite C95_idlist_dead by exact U. unfold M_Tok.Name_set. cbn [leading_name_byte starts_with negb].
  set (v := list_varname upper s). set (b := _ <? _). unfold owarn_if.
  destruct (M_Tok.encode _ _ _ _ _ _ _ _) as [r|x]; destruct b; cbn; intuition discriminate.
Qed.
(** A name that is too long is stored with a warning; shorter ones without. *)
Theorem C95_length : forall t s d w, set_list t s = (w, Ok d) ->
  (In WListName w <-> (if starts_with (s2l "|L") (list_varname upper s) then 7 else 5) < zlen (list_varname upper s)).
Proof.
  intros t s d w H. rewrite C95_idlist_dead in H by exact U. unfold M_Tok.Name_set in H. cbn [leading_name_byte starts_with negb] in H.
  rewrite <- Z.ltb_lt. set (v := list_varname upper s) in *. set (b := _ <? _) in *.
  destruct (M_Tok.encode _ _ _ _ _ _ _ _) as [r|x]; destruct b; cbn in H; try discriminate H;
    injection H as <- _; cbn; intuition (try discriminate).
Qed.
End Lists.
Print Assumptions C95_roundtrip.
Print Assumptions C95_unchecked.
Print Assumptions C95_length.
(** The byte 5D that marks a named list is dropped when the name is read and not
    written when the same name is set. *)
Theorem C95_prefix_refuted : exists d s,
  list_name_get (name_get Z Z.gtb 0 0 sheet0) (ljust 8 d) = oret s /\
  list_name_set ascii_upper (Name_set Z Z.gtb 0 0 (fun s => s) (from_tokens kz) KEntry) s = ([], Ok (tl d)) /\
  hd 0 d = 93.
Proof. exists [93; 66; 65]. eexists. repeat split; vm_compute; reflexivity. Qed.
Print Assumptions C95_prefix_refuted.
Example C95_example : list_name_set ascii_upper (Name_set Z Z.gtb 0 0 (fun s => s) (from_tokens kz) KEntry) (s2l "baba") = ([], Ok [66; 65; 66; 65]) /\
  list_name_get (name_get Z Z.gtb 0 0 sheet0) (ljust 8 [66; 65; 66; 65]) = oret (s2l "BABA") /\
  list_name_set ascii_upper (Name_set Z Z.gtb 0 0 (fun s => s) (from_tokens kz) KEntry) (s2l "]ab") = ([], Ok [235; 65; 66]) /\
  list_name_get (name_get Z Z.gtb 0 0 sheet0) (93 :: 64 :: zeros 6) = oret (s2l "IDList").
Proof. repeat split; vm_compute; reflexivity. Qed.

(** ** C96: equation and string names *)
Section Equations.
Variable digit : Z -> bool.
(** X, Y or r, a digit, perhaps a T. *)
Definition equation_body (s : str) : Prop :=
  exists a d t, s = a :: d :: t /\ In a [88; 89; 114] /\ digit d = true /\ (t = [] \/ t = [84]).
(** The same with an opening brace, a closing brace, both or none. *)
Definition perhaps_braced (body s : str) : Prop :=
  exists o c, s = o ++ body ++ c /\ (o = [] \/ o = [123]) /\ (c = [] \/ c = [125]).

Lemma match_sound s m : equation_match digit s = Some m -> equation_body m /\ perhaps_braced m s.
Proof.
  unfold equation_match. intros H.
  assert (O : exists o, s = o ++ strip_head 123 s /\ (o = [] \/ o = [123])).
  { destruct s as [|x r]; [exists []; auto|]. cbn [strip_head]. destruct (x =? 123) eqn:E; [|exists []; auto].
    exists [123]. split; auto. cbn. f_equal. lia. }
  destruct O as (o & So & Ho). set (s' := strip_head 123 s) in *. clearbody s'. subst s.
  destruct s' as [|a [|d r]]; try discriminate H. destruct (memb a [88; 89; 114] && digit d) eqn:A; [|discriminate H].
  apply andb_true_iff in A as [A D].
  assert (I : In a [88; 89; 114]) by (unfold memb in A; apply existsb_exists in A as (y & I & E); apply Z.eqb_eq in E; subst; exact I).
  assert (T : exists t, r = t ++ strip_head 84 r /\ (t = [] \/ t = [84])).
  { destruct r as [|x r]; [exists []; auto|]. cbn [strip_head]. destruct (x =? 84) eqn:E; [|exists []; auto].
    exists [84]. split; auto. cbn. f_equal. lia. }
  destruct T as (t & Tr & Ht). set (q := strip_head 84 r) in *. clearbody q. subst r.
  assert (C : exists c, q = c ++ strip_head 125 q /\ (c = [] \/ c = [125])).
  { destruct q as [|x r]; [exists []; auto|]. cbn [strip_head]. destruct (x =? 125) eqn:E; [|exists []; auto].
    exists [125]. split; auto. cbn. f_equal. lia. }
  destruct C as (c & Cq & Hc). destruct (strip_head 125 q); [|discriminate H]. rewrite app_nil_r in Cq. subst q.
  injection H as <-. rewrite app_length. replace (length t + length c - length c)%nat with (length t) by lia.
  rewrite firstn_app_exact by reflexivity. split.
  - exists a, d, t. auto.
  - exists o, c. auto.
Qed.
Lemma match_complete s m : equation_body m -> perhaps_braced m s -> equation_match digit s = Some m.
Proof.
  intros (a & d & t & -> & I & D & Ht) (o & c & -> & Ho & Hc).
  assert (M : memb a [88; 89; 114] = true) by (unfold memb; apply existsb_exists; exists a; split; [exact I|apply Z.eqb_refl]).
  assert (NA : (a =? 123) = false) by (cbn in I; lia).
  assert (S1 : strip_head 123 (o ++ (a :: d :: t) ++ c) = a :: d :: t ++ c).
  { destruct Ho as [-> | ->]; cbn; [rewrite NA|]; reflexivity. }
  unfold equation_match. rewrite S1, M, D. cbn [andb].
  destruct Ht as [-> | ->], Hc as [-> | ->]; reflexivity.
Qed.

(** Names of the form X1, Y1, r1, X1T, Y1T, with either brace missing or present,
    get both braces. *)
Theorem C96_braces : forall body s, equation_body body -> perhaps_braced body s -> equation_name digit s = [123] ++ body ++ [125].
Proof.
  intros body s B P. unfold equation_name. rewrite (match_complete s body B P).
  assert (N : leqb s (s2l "u") || leqb s (s2l "v") || leqb s (s2l "w") = false).
  { destruct B as (a & d & t & -> & I & _). destruct P as (o & c & -> & Ho & _).
    assert (L : (2 <= length (o ++ (a :: d :: t) ++ c))%nat) by (rewrite !app_length; cbn; lia).
    destruct (o ++ (a :: d :: t) ++ c) as [|x [|y l]]; cbn in L; try lia. cbn. rewrite !andb_false_r. reflexivity. }
  rewrite N. reflexivity.
Qed.
(** u, v and w get a bar; any other name is left alone. *)
Theorem C96_sequence : forall s, In s [s2l "u"; s2l "v"; s2l "w"] -> equation_name digit s = [124] ++ s.
Proof. intros s [<-|[<-|[<-|[]]]]; reflexivity. Qed.
Theorem C96_other : forall s, ~ In s [s2l "u"; s2l "v"; s2l "w"] ->
  (forall body, equation_body body -> ~ perhaps_braced body s) -> equation_name digit s = s.
Proof.
  intros s N B. unfold equation_name.
  assert (Q : leqb s (s2l "u") || leqb s (s2l "v") || leqb s (s2l "w") = false).
  { destruct (leqb s (s2l "u")) eqn:E1; [apply leqb_spec in E1; exfalso; apply N; rewrite E1; cbn; auto|].
    destruct (leqb s (s2l "v")) eqn:E2; [apply leqb_spec in E2; exfalso; apply N; rewrite E2; cbn; auto|].
    destruct (leqb s (s2l "w")) eqn:E3; [apply leqb_spec in E3; exfalso; apply N; rewrite E3; cbn; auto|]. reflexivity. }
  rewrite Q. destruct (equation_match digit s) as [m|] eqn:E; [|reflexivity].
  apply match_sound in E as [E1 E2]. exfalso. exact (B m E1 E2).
Qed.
(** Setting the name that was stored stores it again. *)
Theorem C96_idempotent : forall s, equation_name digit (equation_name digit s) = equation_name digit s.
Proof.
  intros s. unfold equation_name at 2 3.
  destruct (leqb s (s2l "u") || leqb s (s2l "v") || leqb s (s2l "w")) eqn:Q.
  - apply orb_true_iff in Q as [Q|Q]; [apply orb_true_iff in Q as [Q|Q]|]; apply leqb_spec in Q; subst; reflexivity.
  - destruct (equation_match digit s) as [m|] eqn:E.
    + apply match_sound in E as [E _]. apply C96_braces; [exact E|]. exists [123], [125]. auto.
    + unfold equation_name. rewrite Q, E. reflexivity.
Qed.
End Equations.
Print Assumptions C96_braces.
Print Assumptions C96_sequence.
Print Assumptions C96_other.
Print Assumptions C96_idempotent.
(** The names Str0-Str9 in any mixture of cases are stored with the capital the
    token has. *)
Theorem C96_string : forall a b c d, In a [83; 115] -> In b [84; 116] -> In c [82; 114] -> 48 <= d <= 57 ->
  string_name [a; b; c; d] = s2l "Str" ++ [d].
Proof.
  intros a b c d A B C D. unfold string_name. cbn [map]. unfold low1, up1.
  replace ((65 <=? d) && (d <=? 90)) with false by lia.
  destruct A as [<-|[<-|[]]], B as [<-|[<-|[]]], C as [<-|[<-|[]]]; reflexivity.
Qed.
Print Assumptions C96_string.
(** Any text: only the case of letters changes, the first is not lower case, and no
    other is upper case. *)
Definition same_letter (a b : Z) : Prop := a = b \/ (65 <= a <= 90 /\ b = a + 32) \/ (65 <= b <= 90 /\ a = b + 32).
Theorem C96_capital : forall s, Forall2 same_letter s (string_name s) /\
  (forall c r, string_name s = c :: r -> ~ 97 <= c <= 122 /\ Forall (fun x => ~ 65 <= x <= 90) r).
Proof.
  intros [|c s]; [split; [constructor|discriminate]|]. unfold string_name. split.
  - constructor.
    + unfold up1, same_letter. destruct ((97 <=? c) && (c <=? 122)) eqn:E; lia.
    + induction s as [|x s IH]; constructor; [|exact IH]. unfold low1, same_letter. destruct ((65 <=? x) && (x <=? 90)) eqn:E; lia.
  - intros d r H. injection H as <- <-. split.
    + unfold up1. destruct ((97 <=? c) && (c <=? 122)) eqn:E; lia.
    + apply Forall_forall. intros x I. apply in_map_iff in I as (y & <- & _). unfold low1. destruct ((65 <=? y) && (y <=? 90)) eqn:E; lia.
Qed.
Print Assumptions C96_capital.
Example C96_example : let digit d := (48 <=? d) && (d <=? 57) in
  equation_name digit (s2l "Y1") = s2l "{Y1}" /\ equation_name digit (s2l "{X2T") = s2l "{X2T}" /\
  equation_name digit (s2l "u") = s2l "|u" /\ equation_name digit (s2l "Y12") = s2l "Y12" /\
  equation_name digit (s2l "|u") = s2l "|u" /\ string_name (s2l "STR1") = s2l "Str1".
Proof. repeat split; reflexivity. Qed.
