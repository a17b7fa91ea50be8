(** Hexadecimal dumps, numbered texts, and format strings (C127-C132). *)
From Verif Require Import L_Base M_Data M_Numeric M_Class M_Var M_Real M_Text M_CText M_TText M_Format S_Format L_Format P_ListText P_TText L_Real.

(** ** C127: the layout of dumps *)
Theorem C127_layout : forall uni default s sg ds l sep d, wf_bytes d ->
  hex_shape uni s sg ds l sep -> zlen ds <= 4300 -> c_int (asked_width sg ds sep) -> 0 <= asked_sep sep < 128 ->
  entry_format uni default s d = Ok (dump l (asked_sep sep) (asked_width sg ds sep) d).
Proof.
  intros uni default s sg ds l sep d W H L C A. rewrite (entry_format_shape _ _ _ _ _ _ _ _ H W). cbv zeta. unfold c_int in C.
  replace (4300 <? zlen ds) with false by lia. replace ((asked_width sg ds sep <? - 2 ^ 31) || (2 ^ 31 <=? asked_width sg ds sep)) with false by lia. now replace (127 <? asked_sep sep) with false by lia.
Qed.
(** The separators stand before every group but the first; their number. *)
Theorem C127_length : forall l sep n d, zlen (dump l sep n d) = if n =? 0 then 2 * zlen d else if zlen d =? 0 then 0 else 2 * zlen d + (zlen d - 1) / Z.abs n.
Proof. exact dump_length. Qed.
Print Assumptions C127_layout.
Print Assumptions C127_length.
Definition nouni (c : Z) : option Z := None.
Example C127_shape_ex : hex_shape nouni (s2l "-2X:") (s2l "-") [2] false (Some 58).
Proof.
  exists (s2l "2"). split; [reflexivity|]. split; [repeat constructor; cbn; lia|]. split; [right; split; [now right|discriminate]|]. intros c d [= <-]. cbn. lia.
Qed.
Example C127_ex : entry_format nouni [] (s2l "-2X:") [1; 171; 255] = Ok (s2l "01AB:FF") /\ entry_format nouni [] (s2l "2x") [1; 171; 255] = Ok (s2l "01 abff") /\
  dump false 58 (-2) [1; 171; 255] = s2l "01AB:FF" /\ dump true 32 2 [1; 171; 255] = s2l "01 abff".
Proof. repeat split; vm_compute; reflexivity. Qed.

(** ** C128: the dump determines the data *)
Theorem C128_injective : forall uni f1 f2 s d1 d2 t, wf_bytes d1 -> wf_bytes d2 -> s <> [] ->
  entry_format uni f1 s d1 = Ok t -> entry_format uni f2 s d2 = Ok t -> d1 = d2.
Proof.
  intros uni f1 f2 s d1 d2 t W1 W2 NE E1 E2. destruct (hex_spec uni s) as [[[w l] p]|] eqn:H.
  - apply hex_spec_inv in H as (sg & ds & H & _). rewrite (entry_format_shape _ _ _ _ _ _ _ _ H W1) in E1. rewrite (entry_format_shape _ _ _ _ _ _ _ _ H W2) in E2. cbv zeta in E1, E2.
    destruct (4300 <? zlen ds); [discriminate|]. destruct (_ || _); [discriminate|]. destruct (127 <? asked_sep p); [discriminate|]. injection E1 as <-. injection E2 as E2. symmetry in E2. now apply dump_inj in E2.
  - exfalso. unfold entry_format in E1. rewrite H in E1. destruct s; [contradiction|discriminate E1].
Qed.
Print Assumptions C128_injective.
(** Even when the separator is itself a digit of dumps. *)
Example C128_ex : entry_format nouni [] (s2l "xa") [170; 170; 170] = Ok (s2l "aaaaaaaa") /\ entry_format nouni [] (s2l "2xa") [170; 170; 170; 170] <> Ok (s2l "aaaaaaaa").
Proof. split; [vm_compute; reflexivity|]. vm_compute. discriminate. Qed.

(** ** C129: the format strings of entries *)
(** A format string is refused with [TypeError] exactly if it is not empty and has
    not the shape of a dump. *)
Theorem C129_refused : forall uni default s d, wf_bytes d ->
  (entry_format uni default s d = Err TypeError <-> s <> [] /\ forall sg ds l sep, ~ hex_shape uni s sg ds l sep).
Proof.
  intros uni default s d W. split.
  - intros E. split; [intros ->; discriminate E|]. intros sg ds l sep H. rewrite (entry_format_shape _ _ _ _ _ _ _ _ H W) in E. cbv zeta in E.
    destruct (4300 <? zlen ds); [discriminate|]. destruct (_ || _); [discriminate|]. destruct (127 <? asked_sep sep); discriminate.
  - intros (NE & N). unfold entry_format. destruct (hex_spec uni s) as [[[w l] p]|] eqn:H; [exfalso; apply hex_spec_inv in H as (sg & ds & H & _); now apply N in H|]. destruct s; [contradiction|reflexivity].
Qed.
(** The other failures, in this order. *)
Theorem C129_failures : forall uni default s sg ds l sep d, wf_bytes d -> hex_shape uni s sg ds l sep ->
  (zlen ds > 4300 -> entry_format uni default s d = Err ValueError) /\
  (zlen ds <= 4300 -> ~ c_int (asked_width sg ds sep) -> entry_format uni default s d = Err OverflowError) /\
  (zlen ds <= 4300 -> c_int (asked_width sg ds sep) -> asked_sep sep >= 128 -> entry_format uni default s d = Err ValueError).
Proof.
  intros uni default s sg ds l sep d W H. rewrite (entry_format_shape _ _ _ _ _ _ _ _ H W). cbv zeta. unfold c_int. split; [|split]; intros L.
  - now replace (4300 <? zlen ds) with true by lia.
  - intros C. replace (4300 <? zlen ds) with false by lia. now replace ((asked_width sg ds sep <? - 2 ^ 31) || (2 ^ 31 <=? asked_width sg ds sep)) with true by lia.
  - intros C A. replace (4300 <? zlen ds) with false by lia. replace ((asked_width sg ds sep <? - 2 ^ 31) || (2 ^ 31 <=? asked_width sg ds sep)) with false by lia. now replace (127 <? asked_sep sep) with true by lia.
Qed.
(** The empty format string gives the default text. *)
Theorem C129_empty : forall uni default d, entry_format uni default [] d = Ok default.
Proof. reflexivity. Qed.
(** A format string has the shape of a dump in at most one way. *)
Theorem C129_unique : forall uni s sg ds l sep sg' ds' l' sep', hex_shape uni s sg ds l sep -> hex_shape uni s sg' ds' l' sep' ->
  sg = sg' /\ ds = ds' /\ l = l' /\ sep = sep'.
Proof.
  intros uni s sg ds l sep sg' ds' l' sep' H H'. pose proof (hex_spec_shape _ _ _ _ _ _ H) as E. rewrite (hex_spec_shape _ _ _ _ _ _ H') in E. injection E as E -> ->.
  destruct H as (cs & -> & F & SG & P). destruct H' as (cs' & E' & F' & SG' & P').
  assert (NS : forall c d r t x, digit_char uni c d -> (x = s2l "+" \/ x = s2l "-") -> c :: r = x ++ t -> False) by (intros c d r t x D [->| ->] Q; (change (s2l "+") with [43] in Q || change (s2l "-") with [45] in Q); injection Q as -> _; vm_compute in D; destruct D as ((D1 & D2) & _); (now apply D1) || (now apply D2)).
  destruct ds as [|x ds], ds' as [|y ds']; try discriminate E.
  - destruct SG as [->|(_ & C)]; [|now destruct C]. destruct SG' as [->|(_ & C)]; [|now destruct C]. auto.
  - cbn [width_of] in E. injection E as _ <- <-. split; [|auto]. inversion F; inversion F'; subst.
    destruct SG as [->|(SG & _)], SG' as [->|(SG' & _)]; [reflexivity|exfalso; eapply NS; [|exact SG'|cbn [app] in E'; exact E']; eassumption|exfalso; eapply NS; [|exact SG|symmetry; cbn [app] in E'; exact E']; eassumption|].
    destruct SG as [->| ->], SG' as [->| ->]; (reflexivity || discriminate E').
Qed.
Print Assumptions C129_refused.
Print Assumptions C129_failures.
Print Assumptions C129_empty.
Print Assumptions C129_unique.
Example C129_ex : entry_format nouni [] (s2l "+x") [1] = Err TypeError /\ entry_format nouni [] (s2l "x1") [1] = Err TypeError /\ entry_format nouni [] (s2l "2147483648x") [1] = Err OverflowError /\
  entry_format nouni [] (s2l "-2147483648x") [1] = Ok (s2l "01") /\ entry_format nouni [] [120; 233] [] = Err ValueError.
Proof. repeat split; vm_compute; reflexivity. Qed.

(** ** C130: dumps of tokenized entries *)
Section Tokens.
  Context (uni_digit : Z -> option Z) (uni_word : Z -> bool) (decode : bool -> str -> result str) (int_format : Z -> str -> result str).
  (** Every digit is a word character, as in Unicode. *)
  Context (digits_words : forall c d, uni_digit c = Some d -> uni_word c = true).
  Notation tok := (tok_format uni_digit uni_word decode int_format).
(** Dumps come out as for other entries, unless the letter is small and a separator follows
    that is not a word character. *)
Theorem C130_dump : forall default s sg ds l sep d, hex_shape uni_digit s sg ds l sep ->
  (forall c, sep = Some c -> l = false \/ word uni_word c = true) ->
  tok default s d = entry_format uni_digit default s d.
Proof.
  intros default s sg ds l sep d H N. unfold tok_format, tok_body, tok_spec.
  assert (LN : lines_match uni_word [] s = None).
  { rewrite (lines_shape uni_digit uni_word _ _ _ _ _ H). destruct sep as [c|]; [|reflexivity]. destruct (N c eq_refl) as [->| ->]; [reflexivity|]. now rewrite Bool.andb_false_r. }
  rewrite LN. destruct (tail_shape uni_digit uni_word digits_words _ _ _ _ _ H) as [T|(g & T)]; rewrite T; cbn beta iota; [reflexivity|].
  destruct l; reflexivity.
Qed.
(** Otherwise the text comes out, its lines numbered in hexadecimal; the dump comes
    out only if that fails. *)
Theorem C130_numbered : forall default s sg ds c d, hex_shape uni_digit s sg ds true (Some c) -> word uni_word c = false ->
  tok default s d = match (try t := decode false (s2l "en") in numbered int_format (removelast s) [c] t) with
                    | Ok t => Ok t
                    | Err x => if caught x then entry_format uni_digit default s d else Err x
                    end.
Proof.
  intros default s sg ds c d H N. unfold tok_format, tok_body, tok_spec. rewrite (lines_shape uni_digit uni_word _ _ _ _ _ H), N. cbn [andb negb]. cbn beta iota zeta. change (leqb [] [] || leqb [] (s2l "d")) with true. cbn beta iota.
  destruct (decode false (s2l "en")) as [t|x]; cbn [rbind]; reflexivity.
Qed.
End Tokens.
(** So the claim that dumps come out is false. *)
Definition plain_text (acc : bool) (lang : str) : result str := Ok (s2l "Disp 1").
Definition one_digit (i : Z) (f : str) : result str := Ok [48 + i].
Theorem C130_dump_refuted : exists s d, hex_shape nouni s [] [] true (Some 58) /\
  entry_format nouni [] s d = Ok (s2l "de:31") /\
  tok_format nouni (fun _ => false) plain_text one_digit [] s d = Ok (s2l "0:Disp 1").
Proof.
  exists (s2l "x:"), [222; 49]. split; [|split; vm_compute; reflexivity]. exists []. split; [reflexivity|]. split; [constructor|]. split; [now left|]. intros c d [= <-]. cbn. lia.
Qed.
Print Assumptions C130_dump.
Print Assumptions C130_numbered.
Print Assumptions C130_dump_refuted.
Example C130_ex : tok_format nouni (fun _ => false) plain_text one_digit [] (s2l "X:") [222; 49] = Ok (s2l "DE:31") /\ tok_format nouni (fun _ => false) plain_text one_digit [] (s2l "2x") [222; 49; 1] = Ok (s2l "de 3101") /\
  tok_format nouni (fun _ => false) plain_text one_digit [] (s2l "d: t.en") [222; 49] = Ok (s2l "0: Disp 1").
Proof. repeat split; vm_compute; reflexivity. Qed.

(** ** C131: numbered lines *)
Theorem C131_lines : forall int_format fmt sep label ls, ls <> [] -> Forall (fun l => ~ In 10 l) ls ->
  (forall i, 0 <= i < zlen ls -> int_format i fmt = Ok (label i)) ->
  numbered int_format fmt sep (lines ls) = Ok (lines (labelled label sep 0 ls)).
Proof.
  intros int_format fmt sep label ls NE F H. unfold numbered. rewrite split_lines by assumption. rewrite (number_lines_label _ _ _ label) by (intros j J; apply H; exact J). cbn [rbind]. now rewrite lines_joined.
Qed.
(** Every text is of lines, so the above describes every numbered text. *)
Theorem C131_text : forall s : str, exists ls, ls <> [] /\ Forall (fun l => ~ In 10 l) ls /\ s = lines ls.
Proof. intros s. exists (split_on 10 s). split; [apply split_ne|]. split; [apply split_no|]. now rewrite lines_joined, joined_split. Qed.
Theorem C131_injective : forall int_format fmt sep s1 s2 t, numbered int_format fmt sep s1 = Ok t -> numbered int_format fmt sep s2 = Ok t -> s1 = s2.
Proof.
  intros int_format fmt sep s1 s2 t E1 E2. unfold numbered in E1, E2. apply rbind_ok in E1 as (u1 & U1 & E1). apply rbind_ok in E2 as (u2 & U2 & E2). injection E1 as E1. injection E2 as E2.
  rewrite <- (joined_split s1), <- (joined_split s2). f_equal. eapply number_lines_inj; [apply split_ne|apply split_ne|apply split_no|apply split_no|exact U1|exact U2|congruence].
Qed.
Print Assumptions C131_lines.
Print Assumptions C131_text.
Print Assumptions C131_injective.
Example C131_ex : numbered one_digit (s2l "d") (s2l ". ") (lines [s2l "Disp 1"; []; s2l "End"]) = Ok (lines [s2l "0. Disp 1"; s2l "1. "; s2l "2. End"]).
Proof. vm_compute. reflexivity. Qed.

(** ** C133: the format strings of texts *)
Section Texts.
  Context (uni_digit : Z -> option Z) (uni_word : Z -> bool) (decode : bool -> str -> result str) (int_format : Z -> str -> result str).
  Notation tok := (tok_format uni_digit uni_word decode int_format).
Lemma word_iff c : word uni_word c = true <-> word_char uni_word c.
Proof. unfold word, word_char. destruct (c <? 128); [|reflexivity]. split; intros H; lia. Qed.
Lemma word_false c : ~ word_char uni_word c -> word uni_word c = false.
Proof. intros H. destruct (word uni_word c) eqn:E; [|reflexivity]. now apply word_iff in E. Qed.
Lemma ends_iff c : ends_format c = true <-> format_end c.
Proof. unfold ends_format, format_end. split; intros H; lia. Qed.
Lemma word_not c : word_char uni_word c -> c <> 10 /\ c <> 46.
Proof. unfold word_char. destruct (c <? 128) eqn:E; intros H; lia. Qed.
Lemma take_words w : Forall (word_char uni_word) w -> take_word uni_word w = (w, []).
Proof. induction 1 as [|c w C F IH]; [reflexivity|]. cbn [take_word]. apply word_iff in C. now rewrite C, IH. Qed.
Lemma lang_ok lang : (forall w, lang = Some w -> w <> [] /\ Forall (word_char uni_word) w) -> lang_match uni_word (lang_part lang) = Some lang.
Proof.
  intros H. destruct lang as [w|]; [|reflexivity]. destruct (H w eq_refl) as (NE & F). unfold lang_match, lang_part.
  assert (A : at_end (46 :: w) = false) by (destruct w; reflexivity). rewrite A, take_words by exact F. destruct w; [contradiction|reflexivity].
Qed.
Lemma tail_ok k lang : (k = [] \/ exists c, k = [c] /\ word_char uni_word c) -> (forall w, lang = Some w -> w <> [] /\ Forall (word_char uni_word) w) ->
  tail_match uni_word (k ++ lang_part lang) = Some (k, lang).
Proof.
  intros K H. destruct K as [->|(c & -> & C)]; cbn [app].
  - pose proof (lang_ok lang H) as L. destruct lang as [w|]; [|reflexivity]. cbn [lang_part] in *. cbn [tail_match]. change (word uni_word 46) with false. cbn beta iota. now rewrite L.
  - cbn [tail_match]. apply word_iff in C. rewrite C, lang_ok by exact H. reflexivity.
Qed.
Lemma sep_word c r : word_char uni_word c -> sep_match uni_word (c :: r) = None.
Proof. intros C. cbn [sep_match]. apply word_iff in C. now rewrite C. Qed.
(** The separator takes all that is not a word character, except the dot of a language
    of two letters or more. *)
Lemma sep_ok p : p <> [] -> Forall (fun c => ~ word_char uni_word c) p -> forall k lang, (k = [] \/ exists c, k = [c] /\ word_char uni_word c) ->
  (forall w, lang = Some w -> w <> [] /\ Forall (word_char uni_word) w) -> (forall w, k = [] -> lang = Some w -> 2 <= zlen w) ->
  sep_match uni_word (p ++ k ++ lang_part lang) = Some (p, (k, lang)).
Proof.
  intros NE F k lang K L T. assert (STOP : sep_match uni_word (k ++ lang_part lang) = None).
  { destruct K as [->|(c & -> & C)]; cbn [app]; [|now apply sep_word]. destruct lang as [w|]; [|reflexivity]. cbn [lang_part]. destruct (L w eq_refl) as (_ & FW). specialize (T w eq_refl eq_refl).
    destruct w as [|x [|y w]]; [vm_compute in T; now destruct T|vm_compute in T; now destruct T|]. apply Forall_cons_iff in FW as (X & FW). apply Forall_cons_iff in FW as (Y & FW).
    cbn [sep_match]. change (word uni_word 46) with false. cbn beta iota. pose proof X as X'. apply word_iff in X'. rewrite X'. cbn [tail_match]. rewrite X'. destruct (word_not y Y) as (N1 & N2).
    rewrite lang_not46; [reflexivity|exact N2|]. cbn [at_end]. destruct w; [lia|reflexivity]. }
  induction F as [|c p C F IH]; [contradiction|]. cbn [app sep_match]. rewrite (word_false c C). destruct p as [|c' p].
  - cbn [app]. rewrite STOP, tail_ok by assumption. reflexivity.
  - rewrite IH by discriminate. reflexivity.
Qed.
Lemma lines_ok f c p rest g : format_end c -> ~ In 10 f -> (forall a x y b, f ++ [c] = a ++ x :: y :: b -> format_end x -> word_char uni_word y) ->
  sep_match uni_word rest = Some (p, g) -> forall pre, lines_match uni_word pre (f ++ c :: rest) = Some (pre ++ f ++ [c], p, g).
Proof.
  intros C N E S. induction f as [|x f IH]; intros pre; cbn [app lines_match].
  - apply ends_iff in C. rewrite C, S. reflexivity.
  - replace (x =? 10) with false by (symmetry; apply Z.eqb_neq; intros ->; apply N; now left).
    rewrite IH; [|intros I; apply N; now right|intros a x' y b Q; apply (E (x :: a) x' y b); cbn [app]; now rewrite <- Q]. rewrite <- app_assoc. cbn [app].
    destruct (ends_format x) eqn:EX; [|reflexivity]. apply ends_iff in EX. assert (W : exists y r, f ++ c :: rest = y :: r /\ word_char uni_word y).
    { destruct f as [|y f]; [exists c, rest; split; [reflexivity|]; now apply (E [] x c [])|exists y, (f ++ c :: rest); split; [reflexivity|]; now apply (E [] x y (f ++ [c]))]. }
    destruct W as (y & r & -> & W). now rewrite sep_word.
Qed.
Lemma lines_none s : (forall a x y b, s = a ++ x :: y :: b -> format_end x -> word_char uni_word y) -> forall pre, lines_match uni_word pre s = None.
Proof.
  induction s as [|x s IH]; intros E pre; [reflexivity|]. cbn [lines_match].
  assert (I : lines_match uni_word (pre ++ [x]) s = None) by (apply IH; intros a x' y b Q; apply (E (x :: a) x' y b); cbn [app]; now rewrite <- Q).
  rewrite I. destruct (x =? 10), (ends_format x) eqn:EX; try reflexivity; apply ends_iff in EX; (destruct s as [|y s]; [reflexivity|]); rewrite sep_word; try reflexivity; now apply (E [] x y s).
Qed.
(** The outcome: the text as decoded, the dump if decoding fails in one of four ways. *)
Definition outcome (default s : str) (d : bytes) (r : result str) : result str :=
  match r with
  | Ok t => Ok t
  | Err x => if caught x then entry_format uni_digit default s d else Err x
  end.
Lemma kind_word k acc : text_kind k acc -> k = [] \/ exists c, k = [c] /\ word_char uni_word c.
Proof.
  intros [(_ & [->| ->])|(_ & [->| ->])]; [now left|right..]; [exists 100|exists 97|exists 116]; (split; [reflexivity|]); unfold word_char; cbn; lia.
Qed.
Lemma kind_body k acc lang (f : str -> result str) : text_kind k acc ->
  (try t := (if leqb k [] || leqb k (s2l "d") then decode false lang else if leqb k (s2l "a") || leqb k (s2l "t") then decode true lang else Err KeyError) in f t) = try t := decode acc lang in f t.
Proof. intros [(-> & [->| ->])|(-> & [->| ->])]; reflexivity. Qed.
Lemma words_follow w : Forall (word_char uni_word) w -> forall a x y b, 46 :: w = a ++ x :: y :: b -> format_end x -> word_char uni_word y.
Proof.
  intros F a x y b Q E. destruct a as [|z a]; [injection Q as <- _; unfold format_end in E; lia|]. injection Q as _ Q. rewrite Forall_forall in F. apply F. rewrite Q. apply in_or_app. right. right. now left.
Qed.
(** A text, as the kind and the language ask; without a language it is English. *)
Theorem C133_text : forall default k acc lang d, text_kind k acc -> (forall w, lang = Some w -> w <> [] /\ Forall (word_char uni_word) w /\ (k <> [] -> 2 <= zlen w)) ->
  let s := k ++ lang_part lang in
  tok default s d = outcome default s d (decode acc (match lang with Some w => w | None => s2l "en" end)).
Proof.
  intros default k acc lang d K L s.
  assert (L' : forall w, lang = Some w -> w <> [] /\ Forall (word_char uni_word) w) by (intros w E; destruct (L w E) as (A & B & _); auto).
  assert (N : lines_match uni_word [] s = None).
  { assert (R : forall pre, lines_match uni_word pre (lang_part lang) = None).
    { intros pre. destruct lang as [w|]; [|reflexivity]. apply lines_none. apply words_follow. now apply (L' w). }
    unfold s. destruct (kind_word k acc K) as [->|(c & -> & C)]; [exact (R [])|]. cbn [app lines_match]. rewrite R. destruct (c =? 10), (ends_format c); try reflexivity.
    - assert (S : sep_match uni_word (lang_part lang) = None); [|now rewrite S]. destruct lang as [w|]; [|reflexivity]. destruct (L w eq_refl) as (_ & F & T). specialize (T ltac:(discriminate)).
      destruct w as [|x [|y w]]; [vm_compute in T; now destruct T|vm_compute in T; now destruct T|]. apply Forall_cons_iff in F as (X & F). apply Forall_cons_iff in F as (Y & F).
      cbn [lang_part sep_match]. change (word uni_word 46) with false. cbn beta iota. apply word_iff in X. rewrite X. cbn [tail_match]. rewrite X. destruct (word_not y Y) as (N1 & N2).
      rewrite lang_not46; [reflexivity|exact N2|]. cbn [at_end]. destruct w; [lia|reflexivity].
    - assert (S : sep_match uni_word (lang_part lang) = None); [|now rewrite S]. destruct lang as [w|]; [|reflexivity]. destruct (L w eq_refl) as (_ & F & T). specialize (T ltac:(discriminate)).
      destruct w as [|x [|y w]]; [vm_compute in T; now destruct T|vm_compute in T; now destruct T|]. apply Forall_cons_iff in F as (X & F). apply Forall_cons_iff in F as (Y & F).
      cbn [lang_part sep_match]. change (word uni_word 46) with false. cbn beta iota. apply word_iff in X. rewrite X. cbn [tail_match]. rewrite X. destruct (word_not y Y) as (N1 & N2).
      rewrite lang_not46; [reflexivity|exact N2|]. cbn [at_end]. destruct w; [lia|reflexivity]. }
  assert (T : tail_match uni_word s = Some (k, lang)) by (apply tail_ok; [now apply (kind_word k acc)|exact L']).
  unfold tok_format, tok_body, tok_spec. rewrite N, T. cbv zeta. rewrite (kind_body k acc _ (fun t => Ok t) K). unfold outcome. destruct (decode acc _); reflexivity.
Qed.
(** A numbered text: a number format [f ++ [c]], a separator, and the kind and language.
    The number format ends at the first character that may end one and is not followed by
    a word character. *)
Theorem C133_numbered : forall default f c p k acc lang d, text_kind k acc -> format_end c -> ~ In 10 f ->
  (forall a x y b, f ++ [c] = a ++ x :: y :: b -> format_end x -> word_char uni_word y) ->
  p <> [] -> Forall (fun c => ~ word_char uni_word c) p ->
  (forall w, lang = Some w -> w <> [] /\ Forall (word_char uni_word) w /\ (k = [] -> 2 <= zlen w)) ->
  let s := f ++ c :: p ++ k ++ lang_part lang in
  tok default s d = outcome default s d (try t := decode acc (match lang with Some w => w | None => s2l "en" end) in numbered int_format (f ++ [c]) p t).
Proof.
  intros default f c p k acc lang d K C N E NE F L s.
  assert (L' : forall w, lang = Some w -> w <> [] /\ Forall (word_char uni_word) w) by (intros w Q; destruct (L w Q) as (A & B & _); auto).
  assert (S : sep_match uni_word (p ++ k ++ lang_part lang) = Some (p, (k, lang))) by (apply sep_ok; auto; [now apply (kind_word k acc)|intros w K0 Q; now apply L]).
  pose proof (lines_ok f c p _ _ C N E S []) as M. unfold tok_format, tok_body, tok_spec. fold s in M. rewrite M. cbn [app]. cbv zeta.
  rewrite (kind_body k acc _ (numbered int_format (f ++ [c]) p) K). unfold outcome. destruct (try t := decode acc _ in _); reflexivity.
Qed.
(** A format string that is only a newline counts as an empty one: the end of the
    expression is also before a last newline. *)
Theorem C133_newline : forall default d, tok default [10] d = outcome default [10] d (decode false (s2l "en")).
Proof. intros default d. unfold tok_format, tok_body, tok_spec. change (lines_match uni_word [] [10]) with (@None (str * str * (str * option str))). change (tail_match uni_word [10]) with (Some (@nil Z, @None str)). cbv beta iota zeta. change (leqb (@nil Z) [] || leqb [] (s2l "d")) with true. cbv iota. unfold outcome. destruct (decode false (s2l "en")); reflexivity. Qed.
End Texts.
Print Assumptions C133_text.
Print Assumptions C133_numbered.
(** A language of one letter is taken for the kind of a numbered text. *)
Definition both_texts (acc : bool) (lang : str) : result str := Ok ((if acc then s2l "acc " else s2l "dis ") ++ lang).
Theorem C133_short_refuted : exists s, s = s2l "d" ++ lang_part (Some (s2l "e")) /\
  tok_format nouni (fun _ => false) both_texts one_digit [] s [1] = Err TypeError.
Proof. eexists. split; [reflexivity|]. vm_compute. reflexivity. Qed.
Print Assumptions C133_short_refuted.
Example C133_ex : tok_format nouni (fun _ => false) both_texts one_digit [] [] [1] = Ok (s2l "dis en") /\
  tok_format nouni (fun _ => false) both_texts one_digit [] (s2l "t.fr") [1] = Ok (s2l "acc fr") /\
  tok_format nouni (fun _ => false) both_texts one_digit [] (s2l "02d: .fr") [1] = Ok (s2l "0: dis fr") /\
  tok_format nouni (fun _ => false) both_texts one_digit [] (s2l "#x - a") [1] = Ok (s2l "0 - acc en").
Proof. repeat split; vm_compute; reflexivity. Qed.

(** ** C132: dumps of real numbers *)
(** [format(Decimal, s)] on the format strings of dumps: an invalid format string,
    unless the letter is taken for a fill character before an alignment. *)
Definition decimal_on_dumps (uni : Z -> option Z) (decimal_format : str -> result str) (shown : str) : Prop :=
  forall s sg ds l sep, hex_shape uni s sg ds l sep ->
    decimal_format s = if leqb sg [] && leqb ds [] && match sep with Some c => memb c (s2l "<>=^") | None => false end then Ok shown else Err ValueError.
Lemma shape_end uni s sg ds l sep : hex_shape uni s sg ds l sep -> rev s = match sep with Some c => [c] | None => [] end ++ letter l :: rev (removelast (removelast (s ++ match sep with Some _ => [] | None => [0] end))).
Proof.
  intros (cs & -> & _ & _ & _). destruct sep as [c|].
  - rewrite app_nil_r. rewrite !app_assoc. change (letter l :: [c]) with ([letter l] ++ [c]). rewrite !app_assoc, !removelast_last, !rev_app_distr. reflexivity.
  - rewrite !app_assoc, !removelast_last, !rev_app_distr. reflexivity.
Qed.
Theorem C132_dump : forall uni decimal_format shown default s sg ds l sep d, decimal_on_dumps uni decimal_format shown ->
  hex_shape uni s sg ds l sep -> sep <> Some 116 ->
  real_format uni decimal_format default s d =
  if leqb sg [] && leqb ds [] && match sep with Some c => memb c (s2l "<>=^") | None => false end then Ok shown else entry_format uni default s d.
Proof.
  intros uni decimal_format shown default s sg ds l sep d D H N.
  assert (R : real_format uni decimal_format default s d = real_plain uni decimal_format default s d).
  { unfold real_format. rewrite (shape_end _ _ _ _ _ _ H). set (x := rev _). clearbody x. destruct sep as [c|]; cbn [app].
    - assert (N' : c <> 116) by congruence. destruct c as [|q|q]; try reflexivity. do 7 (destruct q as [q|q|]; try reflexivity). now destruct N'.
    - destruct l; reflexivity. }
  rewrite R. unfold real_plain. rewrite (D _ _ _ _ _ H). destruct (leqb sg [] && leqb ds [] && _); reflexivity.
Qed.
(** With the separator "t" the separator is "f". *)
Lemma plain_accessible s : (forall c, In c s -> 48 <= c <= 57 \/ 65 <= c <= 90 \/ 97 <= c <= 122) -> accessible s = s.
Proof.
  intros H. unfold accessible, replacer. cbn [fold_left fst snd]. change (s2l "-") with [45]. change (s2l "/") with [47].
  rewrite (str_replace_none 45) by (intros I; apply H in I; lia). rewrite (str_replace_none 47) by (intros I; apply H in I; lia).
  induction s as [|c s IH]; [reflexivity|]. assert (C := H c (or_introl eq_refl)). cbn [sqrt_calls andb app]. replace (c =? ROOT) with false by (unfold ROOT; lia).
  unfold squash in *. cbn [filter]. replace (is_space c) with false by (unfold is_space; lia). cbn [negb]. f_equal. apply IH. intros x I. apply H. now right.
Qed.
Lemma dump_chars l n len d : wf_bytes d -> forall i c, In c (dump_from l 102 n len i d) -> 48 <= c <= 57 \/ 65 <= c <= 90 \/ 97 <= c <= 122.
Proof.
  induction d as [|b d IH]; intros W i c I; [destruct I|]. inversion W as [|? ? B W']; subst. cbn [dump_from] in I. apply in_app_or in I as [I|I].
  - destruct (separated n len i); [destruct I as [<-|[]]; destruct l; cbn; lia|destruct I].
  - apply in_app_or in I as [I|I]; [|now apply IH in I].
    assert (T : forallb (fun c => ((48 <=? c) && (c <=? 57)) || ((65 <=? c) && (c <=? 90)) || ((97 <=? c) && (c <=? 122))) (hex_table l) = true) by (destruct l; reflexivity).
    rewrite forallb_forall in T. assert (X : In c (hex_table l)); [|apply T in X; lia]. unfold is_byte in B.
    assert (LT : length (hex_table l) = 16%nat) by (destruct l; reflexivity). destruct I as [<-|[<-|[]]]; apply nth_In; rewrite LT; lia.
Qed.
Theorem C132_t : forall uni decimal_format shown default s sg ds l d, wf_bytes d -> decimal_on_dumps uni decimal_format shown ->
  hex_shape uni s sg ds l (Some 116) -> zlen ds <= 4300 -> c_int (asked_width sg ds (Some 116)) ->
  real_format uni decimal_format default s d = Ok (dump l 102 (asked_width sg ds (Some 116)) d).
Proof.
  intros uni decimal_format shown default s sg ds l d W D H L C. unfold real_format. rewrite (shape_end _ _ _ _ _ _ H). cbn [app].
  assert (H' : hex_shape uni (removelast s ++ s2l "f") sg ds l (Some 102)).
  { destruct H as (cs & -> & F & SG & _). exists cs. split; [|split; [exact F|split; [exact SG|intros c d' [= <-]; cbn; lia]]].
    change (letter l :: [116]) with ([letter l] ++ [116]). rewrite !app_assoc, removelast_last, <- !app_assoc. reflexivity. }
  unfold real_plain. rewrite (D _ _ _ _ _ H'). change (memb 102 (s2l "<>=^")) with false. rewrite Bool.andb_false_r. cbn beta iota.
  rewrite (C127_layout _ _ _ _ _ _ _ _ W H' L); [|exact C|cbn; lia]. cbn [rbind asked_sep]. f_equal. apply plain_accessible. intros c I. now apply (dump_chars l (asked_width sg ds (Some 102)) (zlen d) d W 0).
Qed.
(** So the claim that dumps come out is false. *)
Definition decimal_text (shown : str) (s : str) : result str :=
  match s with
  | [c; a] => if ((c =? 120) || (c =? 88)) && memb a (s2l "<>=^") then Ok shown else Err ValueError
  | _ => Err ValueError
  end.
Lemma decimal_text_on_dumps shown : decimal_on_dumps nouni (decimal_text shown) shown.
Proof.
  intros s sg ds l sep (cs & -> & F & SG & P). destruct SG as [->|([->| ->] & NE)].
  - cbn [leqb andb app]. destruct F as [|c d cs ds X F].
    + cbn [app leqb andb]. destruct sep as [c|]; [|destruct l; reflexivity]. unfold decimal_text. destruct l; reflexivity.
    + cbn [leqb andb app]. unfold digit_char in X. destruct (c <? 128) eqn:C; [|discriminate X]. unfold decimal_text. assert (NX : ((c =? 120) || (c =? 88)) = false) by lia.
      destruct cs as [|c' cs]; cbn [app].
      * destruct sep; [reflexivity|]. now rewrite NX.
      * destruct cs as [|c2 cs]; cbn [app]; [destruct sep; reflexivity|]. destruct cs; reflexivity.
  - change (s2l "+") with [43]. destruct F as [|c d cs ds X F]; [contradiction|]. cbn [app leqb andb]. unfold decimal_text. destruct cs as [|c' cs]; cbn [app]; [destruct sep; reflexivity|]. destruct cs; reflexivity.
  - change (s2l "-") with [45]. destruct F as [|c d cs ds X F]; [contradiction|]. cbn [app leqb andb]. unfold decimal_text. destruct cs as [|c' cs]; cbn [app]; [destruct sep; reflexivity|]. destruct cs; reflexivity.
Qed.
Theorem C132_dump_refuted : exists s1 s2 d, hex_shape nouni s1 [] [] true (Some 61) /\ hex_shape nouni s2 [] [] true (Some 116) /\
  entry_format nouni [] s1 d = Ok (s2l "00=80=50") /\ real_format nouni (decimal_text (s2l "5")) [] s1 d = Ok (s2l "5") /\
  entry_format nouni [] s2 d = Ok (s2l "00t80t50") /\ real_format nouni (decimal_text (s2l "5")) [] s2 d = Ok (s2l "00f80f50").
Proof.
  exists (s2l "x="), (s2l "xt"), [0; 128; 80].
  split; [exists []; split; [reflexivity|]; split; [constructor|]; split; [now left|]; intros c d [= <-]; cbn; lia|].
  split; [exists []; split; [reflexivity|]; split; [constructor|]; split; [now left|]; intros c d [= <-]; cbn; lia|].
  split; [vm_compute; reflexivity|]. split; [vm_compute; reflexivity|]. split; vm_compute; reflexivity.
Qed.
Print Assumptions C132_dump.
Print Assumptions C132_t.
Print Assumptions C132_dump_refuted.
Example C132_ex : real_format nouni (decimal_text (s2l "5")) [] (s2l "X:") [0; 128; 80] = Ok (s2l "00:80:50") /\ real_format nouni (decimal_text (s2l "5")) [] (s2l "2x") [0; 128; 80] = Ok (s2l "00 8050").
Proof. split; vm_compute; reflexivity. Qed.
