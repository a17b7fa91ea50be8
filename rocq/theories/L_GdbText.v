(** Lemmas for C145. *)
From Verif Require Import PyBase L_Base M_Data M_Flags M_Models M_Class M_Var M_Gdb M_GdbDict M_Tok M_Os M_GdbText S_Var S_Tok L_Var P_Var L_Tok P_Tok S_List L_List L_Load S_Gdb.

(** * Results without the warnings *)
Definition same {A} (m m' : out A) : Prop := snd m = snd m'.
Definition quiet {A B} (f : A -> out B) (x : A) : out B := ([], snd (f x)).
Lemma same_refl {A} (m : out A) : same m m. Proof. reflexivity. Qed.
Lemma snd_obind {A B} (m : out A) (f : A -> out B) : snd (obind m f) = match snd m with Ok a => snd (f a) | Err x => Err x end.
Proof. destruct m as [w [a|x]]; [|reflexivity]. cbn. now destruct (f a). Qed.
Lemma same_bind {A B} (m m' : out A) (f f' : A -> out B) : same m m' -> (forall a, same (f a) (f' a)) -> same (obind m f) (obind m' f').
Proof. unfold same. intros H F. rewrite !snd_obind, H. destruct (snd m'); [apply F|reflexivity]. Qed.
Lemma same_quiet {A B} (f : A -> out B) x : same (f x) (quiet f x). Proof. reflexivity. Qed.

Section Quiet.
Variable real_of : jv -> out bytes.
Variable number_of whole_of : bytes -> out jv.
Variable misfit : str -> bytes -> bool.
Variable expr_of : geq -> out str.
Variable load_expr : jv -> out bytes.
Variable json_name : str -> str.
Variable other_attr : entry -> str -> jv -> option (out entry).
Ltac sm := repeat (apply same_bind; [apply same_refl|intros ?]).
Lemma equation_dict_quiet q : same (equation_dict expr_of q) (equation_dict (quiet expr_of) q).
Proof. unfold equation_dict. sm. apply same_bind; [apply same_quiet|intros; apply same_refl]. Qed.
Lemma equation_dicts_quiet l : same (equation_dicts expr_of json_name l) (equation_dicts (quiet expr_of) json_name l).
Proof.
  induction l as [|(n, q) r IH]; [reflexivity|]. cbn [equation_dicts]. apply same_bind; [apply equation_dict_quiet|intros ?].
  apply same_bind; [exact IH|intros; apply same_refl].
Qed.
Lemma specific_quiet e : same (specific number_of whole_of expr_of json_name e) (specific number_of whole_of (quiet expr_of) json_name e).
Proof. unfold specific. sm. apply same_bind; [apply equation_dicts_quiet|intros; apply same_refl]. Qed.
Lemma mono_dict_quiet e : same (mono_dict number_of whole_of expr_of json_name e) (mono_dict number_of whole_of (quiet expr_of) json_name e).
Proof.
  unfold mono_dict. destruct (e_cls e); try (apply same_refl); sm; (apply same_bind; [apply specific_quiet|intros; apply same_refl]).
Qed.
Lemma gdb_dict_quiet e : same (gdb_dict number_of whole_of expr_of json_name e) (gdb_dict number_of whole_of (quiet expr_of) json_name e).
Proof.
  unfold gdb_dict. destruct (e_cls e); try (apply same_refl); try (apply mono_dict_quiet); (apply same_bind; [apply mono_dict_quiet|intros; apply same_refl]).
Qed.
Lemma equation_load_quiet j : same (equation_load load_expr j) (equation_load (quiet load_expr) j).
Proof. unfold equation_load. sm. apply same_bind; [apply same_quiet|intros; apply same_refl]. Qed.
Lemma load_equations_quiet l : forall e, same (load_equations load_expr l e) (load_equations (quiet load_expr) l e).
Proof.
  induction l as [|(n, j) r IH]; intros e; [reflexivity|]. cbn [load_equations]. destruct (index_of n _).
  - apply same_bind; [apply equation_load_quiet|intros ?]. apply same_bind; [apply same_refl|intros; apply IH].
  - apply same_bind; [apply same_refl|intros; apply IH].
Qed.
Lemma gdb_load_quiet D e : same (gdb_load_dict real_of misfit load_expr other_attr D e) (gdb_load_dict real_of misfit (quiet load_expr) other_attr D e).
Proof. unfold gdb_load_dict. sm. apply same_bind; [apply load_equations_quiet|intros; apply same_refl]. Qed.
End Quiet.

(** * Encoding behind an escape *)
Section Encode.
Context {OS : Type}.
Variable os_gt os_ge : OS -> OS -> bool.
Variable INITIAL illegal_since : OS.
Variable nfc : str -> str.
Notation encode_loop := (encode_loop OS os_gt illegal_since).
Notation munch := (munch OS illegal_since).
Notation encode := (encode OS os_gt INITIAL illegal_since nfc).
(** Stacks that differ only in the counter of the smart state. *)
Definition alike (a b : state) : Prop := a = b \/ (fst a = SmartMode /\ fst b = SmartMode).
Lemma next_alike a b x : alike a b -> Forall2 alike (next a x) (next b x).
Proof.
  intros [->|[A B]]; [generalize (next b x); induction l; constructor; [now left|assumption]|].
  destruct a as [ka ia], b as [kb ib]. cbn in A, B. subst ka kb. unfold next. cbn [fst snd].
  repeat match goal with |- context [if ?c then _ else _] => destruct c end; repeat constructor; (now left) || (right; split; reflexivity).
Qed.
Lemma munch_alike a b t s : alike a b -> match munch a t s with
  | Ok (k, r, ctx) => exists ctx', munch b t s = Ok (k, r, ctx') /\ Forall2 alike ctx ctx'
  | Err x => munch b t s = Err x end.
Proof.
  intros A. assert (M : munches_max (fst a) = munches_max (fst b)) by (destruct A as [->|[-> ->]]; reflexivity).
  unfold M_Tok.munch. destruct (literal_len s) as [n|].
  { destruct (fromhex _); cbn [rbind]; [|reflexivity]. eexists. split; [reflexivity|now apply next_alike]. }
  destruct (trie_match t s) as [|p l]; [reflexivity|]. rewrite M.
  destruct (if munches_max (fst b) then _ else _) as [[k r]|]; [|reflexivity].
  assert (X : match max_length (fst a) with Some n => snd a =? n | None => false end = match max_length (fst b) with Some n => snd b =? n | None => false end)
    by (destruct A as [->|[-> ->]]; reflexivity).
  rewrite X. destruct (match max_length (fst b) with Some n => _ | None => _ end); eexists; (split; [reflexivity|]); [constructor|now apply next_alike].
Qed.
Lemma loop_moves t : forall fuel fuel' a b s acc acc' i i' ks sn, (fuel <= fuel')%nat -> Forall2 alike a b ->
  encode_loop fuel t a s acc i = Some (EOk ks sn) ->
  exists zs sn', ks = rev acc ++ zs /\ encode_loop fuel' t b s acc' i' = Some (EOk (rev acc' ++ zs) sn').
Proof.
  induction fuel as [|fuel IH]; intros fuel' a b s acc acc' i i' ks sn L A H.
  - cbn [M_Tok.encode_loop] in H. destruct s as [|c s]; [|discriminate H]. injection H as <- <-. exists [], i'. rewrite !app_nil_r.
    split; [reflexivity|]. now destruct fuel'.
  - cbn [M_Tok.encode_loop] in H. destruct s as [|c s].
    { injection H as <- <-. exists [], i'. rewrite !app_nil_r. split; [reflexivity|]. now destruct fuel'. }
    destruct fuel' as [|fuel']; [lia|]. inversion A as [|x y a' b' XY AB]; subst; [discriminate H|]. pose proof (munch_alike x y t (c :: s) XY) as M.
    destruct (munch x t (c :: s)) as [[[k r] ctx]|e] eqn:E; [|destruct e; discriminate H].
    destruct M as (ctx' & M & F). cbn [M_Tok.encode_loop]. rewrite M.
    assert (F' : Forall2 alike (rev ctx ++ a') (rev ctx' ++ b')).
    { apply Forall2_app; [|exact AB]. clear - F. induction F; cbn [rev]; [constructor|]. apply Forall2_app; [assumption|constructor; [assumption|constructor]]. }
    destruct (IH fuel' _ _ r (k :: acc) (k :: acc') _ (py_max OS os_gt (t_since k) i') ks sn ltac:(lia) F' H) as (zs & sn' & -> & Q).
    exists (k :: zs), sn'. cbn [rev] in *. rewrite <- !app_assoc in *. split; [reflexivity|exact Q].
Qed.
(** A text behind an escaped null byte gives the null byte and then the same bytes. *)
Lemma encode_escaped ks s d since : nfc (s2l "\x00" ++ s) = s2l "\x00" ++ nfc s -> encode (from_tokens ks) (s2l "smart") s = Ok (d, since) ->
  exists since', encode (from_tokens ks) (s2l "smart") (s2l "\x00" ++ s) = Ok (0 :: d, since').
Proof.
  intros N H. unfold M_Tok.encode, encode_tokens in *. unfold normalize in *. rewrite N, map_app.
  set (s' := map (fun c => if (c =? 920) || (c =? 1012) || (c =? 7615) then 952 else c) (nfc s)) in *. clearbody s'.
  change (map (fun c => if (c =? 920) || (c =? 1012) || (c =? 7615) then 952 else c) (s2l "\x00")) with (escape [0]).
  change (start_state (s2l "smart")) with (Some (SmartMode, 0)) in *. cbv iota in *.
  destruct (encode_loop (length s') _ _ s' [] INITIAL) as [[ts sn|?|?]|] eqn:E; cbn [rbind] in H; try discriminate H. injection H as <- <-.
  change (length (escape [0] ++ s')) with (S (3 + length s')). destruct (C43_escape os_gt os_ge illegal_since nfc [0]) as (_ & _ & M); [repeat constructor; unfold is_byte; lia|now left|].
  specialize (M ks (SmartMode, 0) s'). change (escape [0] ++ s') with (92 :: 120 :: 48 :: 48 :: s') in *. cbn [M_Tok.encode_loop]. rewrite M. change (rev (next (SmartMode, 0) [0]) ++ []) with [(SmartMode, 1)].
  destruct (loop_moves (from_tokens ks) (length s') (3 + length s') [(SmartMode, 0)] [(SmartMode, 1)] s' [] [illegal OS illegal_since [0]] INITIAL
    (py_max OS os_gt (t_since (illegal OS illegal_since [0])) INITIAL) ts sn ltac:(lia) ltac:(repeat constructor; right; split; reflexivity) E) as (zs & sn' & -> & Q).
  exists sn'. cbn [rev app] in Q. change (3 + length s')%nat with (S (S (S (length s')))) in Q. cbn [length Nat.add].
  match goal with |- context [M_Tok.encode_loop ?a ?b ?c ?f ?t ?k ?r ?x ?y] => replace (M_Tok.encode_loop a b c f t k r x y) with (Some (EOk (illegal OS illegal_since [0] :: zs) sn')) by (symmetry; exact Q) end. reflexivity.
Qed.

(** ** Loading a text *)
Variable sheet : bytes -> option (token OS).
Variable os_of : model -> str -> OS.
Variable ns : cls -> str -> out bytes.
Variable ps : bytes -> option bool.
Notation tok_version := (tok_version OS os_gt os_ge INITIAL illegal_since sheet os_of).
(** The default name of an equation can be set. *)
Definition equation_named : Prop := exists w nm, ns KEquation (s2l "Y1") = (w, Ok nm).
Definition eq_entry (nm d : bytes) (v : Z) : entry := Entry KEquation [13; 0] [3] nm [v] [0] (Buf true d).
Lemma blank_ok : equation_named -> exists w nm, blank_equation OS os_gt os_ge INITIAL illegal_since sheet os_of ns ps = (w, Ok (eq_entry nm [0; 0] 0)).
Proof.
  intros (w & nm & N). unfold blank_equation, entry_new. rewrite N. change (meta_convert KEquation None 13) with (oret [13; 0]). rewrite obind_oret.
  change (section_set_raw (Some 1%nat) (bits_set 0 8 (match type_id_of KEquation with Some t => t | None => 255 end) None)) with (oret [3]). rewrite obind_oret.
  assert (F : exists w' nm', section_set_raw (Some 8%nat) (w, Ok nm) = (w', Ok nm')).
  { unfold section_set_raw, fit_section. cbn [obind]. destruct (8 <? length nm)%nat; eexists; eexists; reflexivity. }
  destruct F as (w' & nm' & F). rewrite F. exists (w' ++ []), nm'. reflexivity.
Qed.
Lemma set_tokens_ok nm d0 u d : is_byte u -> 2 <= zlen d0 -> zlen d < 65536 -> exists w v, set_data tok_version (eq_entry nm d0 u) d = (w, Ok (eq_entry nm (le16 (zlen d) ++ d) v)) /\ is_byte v.
Proof.
  intros U L0 L. unfold set_data. change (data_view (e_cls (eq_entry nm d0 u))) with (View (Some 2) None, DSized). cbv iota beta.
  assert (S : set_length_field (eq_entry nm d0 u) (zlen d) = oret (eq_entry nm (le16 (zlen d) ++ skipn 2 d0) u)).
  { assert (X : exists w e', set_length_field (eq_entry nm d0 u) (zlen d) = (w, Ok e')).
    { unfold set_length_field, integer_set, to_bytes_le. replace (fits 2 (zlen d)) with true by (symmetry; apply fits_spec; change (256 ^ Z.of_nat 2) with 65536; pose proof (zlen_nonneg d); lia). eexists. eexists. reflexivity. }
    destruct X as (w & e' & X). pose proof X as Y. apply set_length_ok in Y as (_ & -> & -> & _); [exact X|reflexivity|exact L0]. }
  rewrite S, obind_oret. cbv beta. destruct (tok_version_total os_gt os_ge INITIAL illegal_since sheet os_of (eq_entry nm (le16 (zlen d) ++ skipn 2 d0) u) (Some d)) as (w1 & v & V & I).
  unfold bytes in *. rewrite V.
  assert (B : is_byte v) by (unfold is_byte; cbn in I; clear - I; lia).
  destruct (set_version_byte (eq_entry nm (le16 (zlen d) ++ skipn 2 d0) u) u v eq_refl U ltac:(unfold is_byte in B; lia)) as (w2 & W).
  cbn [obind]. rewrite W. cbn [obind]. unfold view_set. cbn [view_length v_start v_stop option_map section_set_raw fit_section].
  unfold section_set_raw, fit_section. cbn [obind oret with_version eq_entry e_data b_mut b_data]. eexists. exists v. split; [|exact B].
  assert (P : py_slice_set (le16 (zlen d) ++ skipn 2 d0) (Some 2) None d = le16 (zlen d) ++ d).
  { rewrite py_slice_set_from; [reflexivity|lia|rewrite zlen_app; change (zlen (le16 (zlen d))) with 2; pose proof (zlen_nonneg (skipn 2 d0)); lia]. }
  unfold eq_entry at 2. rewrite <- P. reflexivity.
Qed.
(** A text that can be encoded is loaded as its tokens. *)
Lemma text_loads ks s d since : equation_named -> encode (from_tokens ks) (s2l "smart") s = Ok (d, since) -> zlen d < 65536 ->
  exists w, expr_bytes OS os_gt os_ge INITIAL illegal_since nfc sheet (from_tokens ks) os_of ns ps (JStr s) = (w, Ok (le16 (zlen d) ++ d)).
Proof.
  intros N E L. unfold expr_bytes, equation_of_text. destruct (blank_ok N) as (w1 & nm & ->). cbn [obind].
  unfold load_string. change (issubclass (e_cls (eq_entry nm [0; 0] 0)) KProgram && _) with false. change (issubclass (e_cls (eq_entry nm [0; 0] 0)) KString) with false.
  change (owarn_if false WAsm) with (oret tt). rewrite ?obind_oret. cbn [oret obind]. cbv iota beta zeta. rewrite E. cbn [olift obind fst].
  destruct (set_tokens_ok nm [0; 0] 0 d ltac:(unfold is_byte; lia) ltac:(vm_compute; discriminate) L) as (w2 & v & -> & B). cbn [obind].
  destruct (tok_version_total os_gt os_ge INITIAL illegal_since sheet os_of (eq_entry nm (le16 (zlen d) ++ d) v) None) as (w3 & v' & -> & I). cbn [obind].
  destruct (set_version_byte (eq_entry nm (le16 (zlen d) ++ d) v) v v' eq_refl B ltac:(cbn in I; clear - I; lia)) as (w4 & ->). cbn [obind oret].
  eexists. reflexivity.
Qed.
End Encode.
