(** C155: what is loaded into an entry, after saving the file and opening it again. *)
From Verif Require Import L_Base M_Data M_Flags M_Models M_Class M_Var M_Real M_List M_Tok
  S_Data L_Data L_Flags S_Var L_Models P_Models L_Var L_VarFile P_Var S_Real L_Real P_Real S_List L_List P_List
  S_Tok L_Tok P_Tok L_Pil S_ClassOf L_ClassOf P_ClassOf.

(** Saving a file with header [h] and entries [es], and opening it again, gives a
    file with header [h] and entries [es'], without a warning about its structure. *)
Definition reopened ns gv ps order so h es es' : Prop :=
  exists b w, var_bytes (Var h es None) = Ok b /\ var_load ns gv ps order so (Var h0 [] None) b = (w, Ok (Var h es' None)) /\ no_structural w.
(** The class of the entry is the one its type byte and data ask for (C148). *)
Definition own_class ps (e : entry) : Prop := exists t, e_type e = [t] /\ asked ps t (b_data (e_data e)) (e_cls e).

Lemma same_entry_raw a b : same_raw a b -> e_cls a = e_cls b -> a = b.
Proof. intros (H1 & H2 & H3 & H4 & H5 & H6) C. destruct a, b; cbn in *; congruence. Qed.

Section File.
  Variable ns : cls -> str -> out bytes.
  Variable gv : entry -> option bytes -> out Z.
  Variable ps : bytes -> option bool.
  Variable order : model -> Z.
  Variable so : list model -> list model.
  Variable w0 : list warning.
  Variable e0 : entry.
  Hypothesis DF : entry_default ns gv ps = (w0, Ok e0).
  Hypothesis QD : no_structural w0.
  Notation reopened := (reopened ns gv ps order so).

(** The file gives back exactly its entries if and only if each has its own class. *)
Theorem C155_same_iff : forall h es, header_wf h -> Forall restorable es -> entry_length (Var h es None) < 65536 ->
  (reopened h es es <-> Forall (own_class ps) es).
Proof.
  intros h es HW G L.
  assert (SE : Forall storable es) by (eapply Forall_impl; [|exact G]; intros ? (?&_); auto).
  pose proof (C14_var_bytes (Var h es None) SE L) as B.
  destruct (C14_var_roundtrip ns gv ps order so None (Var h es None) _ w0 e0 HW G L DF QD eq_refl B) as (w & v' & LD & H1 & H2 & F & NS).
  pose proof (C148_var ns gv ps order so None (Var h es None) _ w0 e0 w v' HW G L DF QD B LD) as C. cbn [v_header v_entries] in *.
  replace (var_load ns gv ps order so (Var h [] None)) with (var_load ns gv ps order so (Var h0 [] None)) in LD by reflexivity.
  destruct v' as [h' es' m']. cbn [v_header v_entries v_model] in *. subst h' m'. split.
  - intros (b & w' & B' & LD' & _). rewrite B in B'. injection B' as <-. rewrite LD in LD'. injection LD' as _ ->. clear - C.
    assert (X : forall l l', Forall2 (fun e' e => exists t, e_type e = [t] /\ forall c, e_cls e' = c <-> asked ps t (b_data (e_data e)) c) l l' -> l = l' -> Forall (own_class ps) l').
    { induction 1 as [|a b l l' (t & T & K) _ IH]; intros E; [constructor|]. injection E as -> ->. constructor; [exists t; split; [exact T|now apply K]|auto]. }
    exact (X _ _ C eq_refl).
  - intros O. assert (es' = es) as ->; [|eexists; exists w; split; [exact B|]; split; [exact LD|exact NS]].
    clear - C F O. revert es' F C. induction O as [|e es (t & T & K) O IH]; intros es' F C; inversion F as [|x ? l' ? SR F']; subst; [reflexivity|].
    inversion C as [|? ? ? ? (t' & T' & K') C']; subst. f_equal; [|now apply IH]. apply same_entry_raw; [exact SR|]. apply K'. congruence.
Qed.
(** A file that can be written, and whose entries can be told from flashless ones (C11). *)
Definition fits (h : header) (es : list entry) : Prop :=
  header_wf h /\ Forall storable es /\ Forall (fun e => ~ ambiguous e) es /\ entry_length (Var h es None) < 65536.
(** An entry whose type byte, data and class agree. *)
Definition sound (e : entry) : Prop := self_describing e /\ own_class ps e.
Lemma sound_reopens h es : fits h es -> Forall sound es -> reopened h es es.
Proof.
  intros (HW & S & A & L) G. rewrite Forall_forall in *. apply C155_same_iff; [exact HW| |exact L|].
  - apply Forall_forall. intros e I. split; [auto|]. split; [auto|]. now apply G.
  - apply Forall_forall. intros e I. now apply G.
Qed.
Lemma among_sound pre e post : Forall sound pre -> Forall sound post -> sound e -> Forall sound (pre ++ e :: post).
Proof. intros. apply Forall_app. split; [assumption|]. now constructor. Qed.

(** A number written as text: the file gives back its value. *)
Theorem C155_real : forall h pre e post l s d n k, Forall sound pre -> Forall sound post -> e_cls e = KReal -> e_type e = [0] ->
  e_data e = Buf true d -> length d = 9%nat -> wf_bytes d -> fits h (pre ++ e :: post) ->
  lit_wf l -> unspaced s = lit_text l -> lit_coef l = n * 10 ^ k -> 0 <= k -> 0 < n < 10 ^ 14 ->
  exists m x, sci_eq m (x - 141) (lit_coef l) (lit_scale l) /\ 10 ^ 13 <= m < 10 ^ 14 /\
    (is_byte x -> exists b, real_load s (e_data e) = (b, oret tt) /\
      reopened h (pre ++ with_data e b :: post) (pre ++ with_data e b :: post) /\
      real_decimal (e_data (with_data e b)) = Ok (Dec (lit_neg l) m (x - 141))).
Proof.
  intros h pre e post l s d n k G1 G2 C T D L W (HW & S & A & EL) LW U E K N.
  destruct (C25_exact l s d n k LW U L W E K N) as (m & x & Q & M & R & _). exists m, x. split; [exact Q|]. split; [exact M|].
  intros X. destruct (R X) as (d' & RL & P & RD). exists (Buf true d'). split; [now rewrite D|]. split; [|exact RD].
  destruct P as (L' & _). assert (ZL : zlen d' = zlen d) by (unfold zlen; congruence).
  apply Forall_app in S as (S1 & S2). inversion S2 as [|? ? S0 S3]; subst. apply Forall_app in A as (A1 & A2). inversion A2 as [|? ? A0 A3]; subst.
  apply sound_reopens.
  - split; [exact HW|]. split.
    + apply Forall_app. split; [exact S1|]. constructor; [|exact S3]. destruct S0. split; cbn; auto. rewrite D in st_data. cbn in st_data. now rewrite ZL.
    + split.
      * apply Forall_app. split; [exact A1|]. constructor; [|exact A3]. intros (B1 & B2). apply A0. split; [exact B1|]. rewrite D. cbn in B2 |- *. now rewrite <- ZL.
      * assert (LE : entry_len (with_data e (Buf true d')) = entry_len e) by (unfold entry_len, calc_data_length, calc_data; rewrite D; cbn; now rewrite ZL).
        revert EL. unfold entry_length. cbn [v_entries]. rewrite !map_app. cbn [map]. now rewrite LE.
  - apply among_sound; [assumption..|]. split.
    + exists 0. split; [exact T|]. split; [lia|]. split; intros I; cbn in I; lia.
    + exists 0. split; [exact T|]. cbn [e_cls with_data]. rewrite C. reflexivity.
Qed.

Lemma data_two e : match e_cls e with KRealList | KComplexList | KMatrix => True | _ => False end -> (0 < length (data e))%nat ->
  exists a b, b_data (e_data e) = a :: b :: data e.
Proof.
  intros C. unfold data. assert (V : fst (data_view (e_cls e)) = View (Some 2) None) by (destruct (e_cls e); try destruct C; reflexivity). rewrite V. unfold view_get. cbn [v_start v_stop].
  destruct (b_data (e_data e)) as [|a [|b r]]; [intros H; vm_compute in H; lia|intros H; vm_compute in H; lia|].
  intros _. exists a, b. rewrite py_slice_from by (rewrite ?zlen_cons; pose proof (zlen_nonneg r); lia). reflexivity.
Qed.
(** A list of real numbers: the file gives back a list of the same numbers. *)
Theorem C155_real_list : forall h pre e post xs D w e', names_ok ns -> Forall sound pre -> Forall sound post -> e_cls e = KRealList -> e_type e = [1] ->
  flash_entry e -> e_data e = Buf true D -> (2 <= length D)%nat -> xs <> [] -> zlen xs < 65536 -> (forall x, In x xs -> real_payload (e_cls x) (calc_data x)) ->
  load_list e xs = (w, Ok e') -> fits h (pre ++ e' :: post) ->
  reopened h (pre ++ e' :: post) (pre ++ e' :: post) /\ exists ys, list_elems ns ps e' = oret ys /\ Forall2 same_elem xs ys.
Proof.
  intros h pre e post xs D w e' N G1 G2 C T FE ED LD NE LX PX LL FT.
  destruct (C36_roundtrip ns ps e D xs N) as (e1 & ys & L1 & LE & F & _ & DT & C1 & _ & T1 & _); auto; [rewrite C; now left|rewrite C; exact PX|].
  rewrite LL in L1. injection L1 as _ <-. split; [|exists ys; now split].
  apply sound_reopens; [exact FT|]. apply among_sound; [assumption..|].
  destruct xs as [|x xs]; [congruence|]. destruct (PX x (or_introl eq_refl)) as (LP & WP & K).
  assert (DL : (0 < length (data e'))%nat) by (rewrite DT; cbn [map concat]; rewrite app_length, LP; lia).
  destruct (data_two e') as (a & b & BD); [rewrite C1, C; exact I|exact DL|].
  assert (HD : at_ 2 (b_data (e_data e')) = nth 0 (calc_data x) 0).
  { unfold at_. rewrite BD. cbn [nth]. rewrite DT. cbn [map concat]. destruct (calc_data x); [discriminate LP|reflexivity]. }
  split.
  - exists 1. split; [congruence|]. split; [lia|]. split; intros J; [rewrite BD, !zlen_cons; unfold zlen; lia|cbn in J; lia].
  - exists 1. split; [congruence|]. rewrite C1, C. unfold class_asked. right. split; [reflexivity|]. unfold complex_element. rewrite HD.
    assert (Z32 : nth 0 (calc_data x) 0 mod 32 = (nth 0 (calc_data x) 0 mod 64) mod 32).
    { set (z := nth 0 (calc_data x) 0). clear. Z.div_mod_to_equations. lia. }
    rewrite Z32. unfold real_kinds in K. cbn [In] in K. intros J. cbn [In] in J.
    repeat (destruct K as [K|K]; [injection K as K _; rewrite <- K in J; vm_compute in J; intuition discriminate|]). destruct K.
Qed.
(** A list of complex numbers, if the first real part is not tagged as a number
    outside complex numbers. *)
Theorem C155_complex_list : forall h pre e post x xs D w e', names_ok ns -> Forall sound pre -> Forall sound post -> e_cls e = KComplexList -> e_type e = [13] ->
  flash_entry e -> e_data e = Buf true D -> (2 <= length D)%nat -> zlen (x :: xs) < 65536 -> (forall y, In y (x :: xs) -> complex_payload (e_cls y) (calc_data y)) ->
  load_list e (x :: xs) = (w, Ok e') -> fits h (pre ++ e' :: post) ->
  (exists ys, list_elems ns ps e' = oret ys /\ Forall2 same_elem (x :: xs) ys) /\
  (reopened h (pre ++ e' :: post) (pre ++ e' :: post) <-> ~ In (nth 0 (calc_data x) 0 mod 32) [0; 14; 24; 28]).
Proof.
  intros h pre e post x xs D w e' N G1 G2 C T FE ED LD LX PX LL FT.
  destruct (C36_roundtrip ns ps e D (x :: xs) N) as (e1 & ys & L1 & LE & F & _ & DT & C1 & _ & T1 & _); auto; [rewrite C; right; now left|rewrite C; exact PX|].
  rewrite LL in L1. injection L1 as _ <-. split; [exists ys; now split|].
  destruct (PX x (or_introl eq_refl)) as (LP & WP & K).
  assert (DL : (0 < length (data e'))%nat) by (rewrite DT; cbn [map concat]; rewrite app_length, LP; lia).
  destruct (data_two e') as (a & b & BD); [rewrite C1, C; exact I|exact DL|].
  assert (HD : at_ 2 (b_data (e_data e')) = nth 0 (calc_data x) 0).
  { unfold at_. rewrite BD. cbn [nth]. rewrite DT. cbn [map concat]. destruct (calc_data x); [discriminate LP|reflexivity]. }
  assert (SD : self_describing e').
  { exists 13. split; [congruence|]. split; [lia|]. split; intros J; [rewrite BD, !zlen_cons; unfold zlen; lia|cbn in J; lia]. }
  assert (OC : own_class ps e' <-> ~ In (nth 0 (calc_data x) 0 mod 32) [0; 14; 24; 28]).
  { unfold own_class. rewrite C1, C, T1, T. split.
    - intros (t & E & [(_ & Q)|(_ & Q)]); [|unfold real_element in Q; now rewrite HD in Q].
      unfold complex_element in Q. rewrite HD in Q. cbn [In] in Q |- *. lia.
    - intros Q. exists 13. split; [reflexivity|]. right. split; [reflexivity|]. unfold real_element. now rewrite HD. }
  rewrite <- OC. split.
  - intros R. destruct FT as (HW & S & A & EL). assert (AR : Forall restorable (pre ++ e' :: post)).
    { rewrite Forall_forall in *. intros y I. split; [auto|]. split; [auto|]. apply in_app_or in I as [I|[<-|I]]; [now apply G1|exact SD|now apply G2]. }
    apply (proj1 (C155_same_iff h _ HW AR EL)) in R. apply Forall_app in R as (_ & R). now inversion R.
  - intros O. apply sound_reopens; [exact FT|]. apply among_sound; [assumption..|]. now split.
Qed.
Lemma list_data_type e v w e' : set_list_data e v = (w, Ok e') -> e_type e' = e_type e.
Proof. unfold set_list_data. intros H. apply obind_ok in H as (? & ? & ? & _ & H & _). injection H as _ <-. reflexivity. Qed.
Lemma matrix_type e m w e' : load_matrix e m = (w, Ok e') -> e_type e' = e_type e.
Proof.
  unfold load_matrix. destruct (uneven m); [discriminate|]. intros H. apply obind_ok in H as (? & e1 & ? & H1 & H & _). apply obind_ok in H as (? & e2 & ? & H2 & H & _).
  apply list_data_type in H. rewrite H. clear H.
  unfold set_width in H1. do 3 (apply obind_ok in H1 as (? & ? & ? & _ & H1 & _)). injection H1 as _ <-.
  unfold set_height in H2. do 3 (apply obind_ok in H2 as (? & ? & ? & _ & H2 & _)). injection H2 as _ <-. reflexivity.
Qed.
(** A matrix. *)
Theorem C155_matrix : forall h pre e post a b D m n w e', names_ok ns -> Forall sound pre -> Forall sound post -> e_cls e = KMatrix -> e_type e = [2] ->
  flash_entry e -> e_data e = Buf true (a :: b :: D) -> is_byte b -> m <> [] -> rectangular n m -> 1 <= n <= 255 -> zlen m <= 255 ->
  Forall (Forall (fun x => real_payload (e_cls x) (calc_data x))) m ->
  load_matrix e m = (w, Ok e') -> fits h (pre ++ e' :: post) ->
  reopened h (pre ++ e' :: post) (pre ++ e' :: post) /\ exists rows, matrix_rows ns ps e' = oret rows /\ Forall2 (Forall2 same_elem) m rows.
Proof.
  intros h pre e post a b D m n w e' N G1 G2 C T FE ED Bb NE R1 R2 R3 P LM FT. pose proof (matrix_type e m w e' LM) as T'. rewrite T in T'.
  destruct (C37_roundtrip ns ps e a b D m n N C FE ED Bb NE R1 R2 R3 P) as (e1 & rows & L1 & MR & F & _ & _ & _ & _ & C1 & _).
  rewrite LM in L1. injection L1 as _ <-. split; [|exists rows; now split].
  apply sound_reopens; [exact FT|]. apply among_sound; [assumption..|]. split.
  - exists 2. split; [exact T'|]. split; [lia|]. split; intros J; cbn in J; lia.
  - exists 2. split; [exact T'|]. now rewrite C1.
Qed.
End File.

(** Text loaded into an equation, a string or a program. *)
Section TokenFile.
Context {OS : Type}.
Variable os_gt os_ge : OS -> OS -> bool.
Variable INITIAL illegal_since : OS.
Variable sheet : bytes -> option (token OS).
Variable os_of : model -> str -> OS.
Variable nfc : str -> str.
  Variable ns : cls -> str -> out bytes.
  Variable gv : entry -> option bytes -> out Z.
  Variable ps : bytes -> option bool.
  Variable order : model -> Z.
  Variable so : list model -> list model.
  Variable w0 : list warning.
  Variable e0 : entry.
  Hypothesis DF : entry_default ns gv ps = (w0, Ok e0).
  Hypothesis QD : no_structural w0.
Notation load_tokens := (load_tokens OS os_gt os_ge INITIAL illegal_since sheet os_of).
Notation load_string := (load_string OS os_gt os_ge INITIAL illegal_since nfc sheet).
Notation tokens := (tokens OS os_gt INITIAL illegal_since sheet).
Notation tok_version := (tok_version OS os_gt os_ge INITIAL illegal_since sheet os_of).
Notation encode_tokens := (encode_tokens OS os_gt INITIAL illegal_since nfc).

(** The classes of tokenised entries and their type bytes. *)
Definition text_classes : list (cls * Z) := [(KEquation, 3); (KNewEquation, 11); (KString, 4); (KProgram, 5); (KProtectedProgram, 6)].
Lemma set_data_type e d w e' : issubclass (e_cls e) KTokenized = true -> e_cls e <> KGraphedEquation -> set_data tok_version e d = (w, Ok e') -> e_type e' = e_type e.
Proof.
  intros S NG H.
  assert (SZ : issubclass (e_cls e) KSized = true) by (destruct (e_cls e); try discriminate S; reflexivity).
  assert (NI : e_cls e <> KImage) by (intros X; rewrite X in S; discriminate S).
  destruct (sized_views _ SZ NI NG) as [DV LV]. unfold set_data in H. rewrite DV in H.
  apply obind_ok in H as (? & e1 & ? & E1 & H & _). apply obind_ok in H as (? & e2 & ? & E2 & H & _).
  apply obind_ok in H as (? & ? & ? & _ & H & _). injection H as _ <-. cbn [e_type with_data].
  unfold set_length_field in E1. apply obind_ok in E1 as (? & ? & ? & _ & E1 & _). injection E1 as _ <-.
  apply obind_ok in E2 as (? & ? & ? & _ & E2 & _). unfold set_version in E2. do 2 (apply obind_ok in E2 as (? & ? & ? & _ & E2 & _)). injection E2 as _ <-. reflexivity.
Qed.
Lemma text_own c t d : In (c, t) text_classes -> (In t [5; 6] -> is_asm ps (skipn 2 d) = false) -> asked ps t d c.
Proof.
  intros K A. cbn in K. repeat (destruct K as [K|K]; [injection K as <- <-; try reflexivity; (split; [reflexivity|rewrite A; [discriminate|cbn; tauto]])|]). destruct K.
Qed.
Lemma text_facts c t : In (c, t) text_classes -> issubclass c KTokenized = true /\ c <> KGraphedEquation /\ t <> 35 /\ ~ list_type t /\ ~ complex_type t.
Proof.
  intros K. cbn in K. repeat (destruct K as [K|K]; [injection K as <- <-; split; [reflexivity|]; split; [discriminate|]; split; [discriminate|]; split; intros J; cbn in J; intuition discriminate|]). destruct K.
Qed.
(** Tokens: the file gives back the entry, with the same tokens, unless a program
    is taken for an assembly program (C51). *)
Theorem C155_tokens : forall h pre e t post ts w e', Forall (sound ps) pre -> Forall (sound ps) post -> In (e_cls e, t) text_classes -> e_type e = [t] ->
  2 <= zlen (b_data (e_data e)) -> prefix_free sheet -> Forall (on_sheet sheet) ts ->
  load_tokens e ts = (w, Ok e') -> fits h (pre ++ e' :: post) ->
  tokens e' = oret ts /\
  ((In t [5; 6] -> is_asm ps (concat (map t_bits ts)) = false) -> reopened ns gv ps order so h (pre ++ e' :: post) (pre ++ e' :: post)).
Proof.
  intros h pre e t post ts w e' G1 G2 K T L PF F H FT. destruct (text_facts _ _ K) as (S & NG & N35 & NL & NC).
  split; [now apply (C80_tokens_roundtrip os_gt os_ge INITIAL illegal_since sheet os_of nfc e ts w e')|]. intros NA.
  unfold M_Tok.load_tokens in H. pose proof (set_data_type e _ w e' S NG H) as T'.
  assert (SZ : issubclass (e_cls e) KSized = true) by (destruct (e_cls e); try discriminate S; reflexivity).
  assert (NI : e_cls e <> KImage) by (intros X; rewrite X in S; discriminate S).
  apply set_data_sized in H as (D & _ & C); auto.
  apply (sound_reopens ns gv ps order so w0 e0 DF QD); [exact FT|]. apply among_sound; [assumption..|]. split.
  - exists t. split; [congruence|]. split; [exact N35|]. split; intros J; tauto.
  - exists t. split; [congruence|]. rewrite C. apply text_own; [exact K|]. rewrite D. exact NA.
Qed.
(** Text: the file gives back the tokens the encoder chose. *)
Theorem C155_text : forall h pre e t post ks s w e', Forall (sound ps) pre -> Forall (sound ps) post -> In (e_cls e, t) text_classes -> e_cls e <> KString -> e_type e = [t] ->
  2 <= zlen (b_data (e_data e)) -> prefix_free sheet -> Forall (on_sheet sheet) ks -> ~ In 92 (normalize nfc s) ->
  load_string (from_tokens ks) os_of e s = (w, Ok e') -> fits h (pre ++ e' :: post) ->
  exists ts since, encode_tokens (from_tokens ks) (s2l "smart") s = Ok (ts, since) /\ tokens e' = oret ts /\
  ((In t [5; 6] -> is_asm ps (concat (map t_bits ts)) = false) -> reopened ns gv ps order so h (pre ++ e' :: post) (pre ++ e' :: post)).
Proof.
  intros h pre e t post ks s w e' G1 G2 K NS T L PF F NB H FT. destruct (text_facts _ _ K) as (S & NG & N35 & NL & NC).
  assert (SK : issubclass (e_cls e) KString = false) by (cbn in K; clear - K NS; destruct (e_cls e); try reflexivity; exfalso; (now apply NS) || (repeat (destruct K as [K|K]; [discriminate K|]); destruct K)).
  assert (TK : is_tokenized (e_cls e) = true) by (cbn in K; clear - K; destruct (e_cls e); try reflexivity; exfalso; repeat (destruct K as [K|K]; [discriminate K|]); destruct K).
  assert (H' : exists r since, encode_tokens (from_tokens ks) (s2l "smart") s = Ok (r, since) /\ load_tokens e r = (w, Ok e')).
  { unfold M_Tok.load_string in H. rewrite SK, TK, andb_false_r in H. cbn [owarn_if] in H. unfold M_Tok.encode in H. destruct (encode_tokens (from_tokens ks) (s2l "smart") s) as [(r, since)|x]; [|discriminate H].
    exists r, since. split; [reflexivity|]. unfold M_Tok.load_tokens. cbn [rbind fst snd] in H. unfold olift in H. cbn [obind fst app oret] in H. rewrite <- H. destruct (set_data _ e _) as (w1, [x|x]); reflexivity. }
  destruct H' as (ts & since & E & H'). exists ts, since. split; [exact E|].
  assert (O : Forall (on_sheet sheet) ts).
  { assert (E2 : M_Tok.encode OS os_gt INITIAL illegal_since nfc (from_tokens ks) (s2l "smart") s = Ok (concat (map t_bits ts), since)) by (unfold M_Tok.encode; rewrite E; reflexivity).
    apply (C47_decode_encode os_gt INITIAL illegal_since nfc ks sheet) in E2 as (ts' & E3 & I & _); [|assumption..]. rewrite E in E3. injection E3 as <-. rewrite Forall_forall in I, F |- *. intros k J. apply F, I, J. }
  exact (C155_tokens h pre e t post ts w e' G1 G2 K T L PF O H' FT).
Qed.
End TokenFile.
Print Assumptions C155_same_iff.
Print Assumptions C155_real.
Print Assumptions C155_real_list.
Print Assumptions C155_complex_list.
Print Assumptions C155_matrix.
Print Assumptions C155_tokens.
Print Assumptions C155_text.
(** A real variable, a list of three numbers and a program, in one file. *)
Definition real_x : entry := Entry KReal [13; 0] [0] (s2l "X" ++ [0; 0; 0; 0; 0; 0; 0]) [0] [0] (Buf true [0; 128; 0; 0; 0; 0; 0; 0; 0]).
Example C155_example : exists b l' p',
  real_load (s2l "-12.5") (e_data real_x) = (b, oret tt) /\ b = Buf true [128; 129; 18; 80; 0; 0; 0; 0; 0] /\
  load_list (list0 KRealList 1) nums = ([], Ok l') /\
  load_tokens Z Z.gtb Z.geb 0 0 sheet0 os0 hello [kPrgm; kAB] = oret p' /\
  real_decimal b = Ok (Dec true 12500000000000 (-12)) /\ Forall (sound ps0) [with_data real_x b; l'; p'] /\
  reopened ns0 gv0 ps0 model_index so0 some_header [with_data real_x b; l'; p'] [with_data real_x b; l'; p'].
Proof.
  do 3 eexists. split; [vm_compute; reflexivity|]. split; [reflexivity|]. split; [vm_compute; reflexivity|]. split; [vm_compute; reflexivity|].
  split; [vm_compute; reflexivity|]. split.
  - repeat apply Forall_cons; [..|apply Forall_nil].
    + split; exists 0; (split; [reflexivity|]); [split; [lia|]; split; intros I; cbn in I; lia|reflexivity].
    + split; exists 1; (split; [reflexivity|]); [split; [lia|]; split; intros I; [vm_compute; discriminate|cbn in I; lia]|]. left. split; [now left|vm_compute; now left].
    + split; exists 5; (split; [reflexivity|]); [split; [lia|]; split; intros I; cbn in I; lia|]. split; [reflexivity|vm_compute; discriminate].
  - do 2 eexists. split; [vm_compute; reflexivity|]. split; [vm_compute; reflexivity|]. intros x I. cbn in I. intuition (subst; reflexivity).
Qed.
(** A program whose text has the token that marks assembly programs comes back
    with the same tokens, but as an assembly program. *)
Definition kAsm : token Z := tk [187; 109] 0 "AsmPrgm".
Definition asm_sheet (b : bytes) : option (token Z) := find (fun k => leqb (t_bits k) b) [kA; kAsm].
Theorem C155_asm_refuted : exists p b w x, load_tokens Z Z.gtb Z.geb 0 0 asm_sheet os0 hello [kAsm; kA] = oret p /\ e_cls p = KProgram /\
  var_bytes (Var some_header [p] None) = Ok b /\ var_load ns0 gv0 ps0 model_index so0 (Var h0 [] None) b = (w, Ok (Var some_header [x] None)) /\
  e_cls x = KAsmProgram /\ tokens Z Z.gtb 0 0 asm_sheet x = oret [kAsm; kA].
Proof.
  do 4 eexists. split; [vm_compute; reflexivity|]. split; [reflexivity|]. split; [vm_compute; reflexivity|]. split; [vm_compute; reflexivity|]. split; [reflexivity|vm_compute; reflexivity].
Qed.
Print Assumptions C155_asm_refuted.
(** A list of one complex number whose real part is tagged as a real number comes
    back as a list of real numbers, with the same bytes. *)
Theorem C155_complex_list_refuted : exists c l b w x, complex_payload (e_cls c) (calc_data c) /\ load_list (list0 KComplexList 13) [c] = oret l /\
  var_bytes (Var some_header [l] None) = Ok b /\ var_load ns0 gv0 ps0 model_index so0 (Var h0 [] None) b = (w, Ok (Var some_header [x] None)) /\
  e_cls x = KRealList /\ e_data x = e_data l.
Proof.
  exists (num KComplex 12 [0; 128; 16; 0; 0; 0; 0; 0; 0; 12; 128; 32; 0; 0; 0; 0; 0; 0]). do 4 eexists.
  split; [split; [reflexivity|]; split; [apply Forall_forall; intros z I; cbn in I; unfold is_byte; lia|vm_compute; now left]|]. split; [vm_compute; reflexivity|]. split; [vm_compute; reflexivity|]. split; [vm_compute; reflexivity|]. split; reflexivity.
Qed.
Print Assumptions C155_complex_list_refuted.
