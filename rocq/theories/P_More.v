(** Further theorems for C43, C51, C52, C55, C80, C86 and C88, added after the
    seeded-bug runs. *)
From Verif Require Import L_Base M_Data M_Flags M_Models M_Class M_Var M_Tok M_Group M_Pic M_Flash S_Data L_Data S_Var L_Models P_Models L_Var L_VarFile P_Var S_Tok L_Tok L_Encode P_Tok.

(** C43: normalising the text replaces the three foreign thetas (capital theta,
    the theta symbol, the modifier letter) and nothing else. *)
Definition thetas : list Z := [920; 1012; 7615].
Theorem C43_thetas : forall nfc s,
  Forall2 (fun c d => In c thetas /\ d = 952 \/ ~ In c thetas /\ d = c) (nfc s) (normalize nfc s).
Proof.
  intros nfc s. unfold normalize. induction (nfc s) as [|c l IH]; [constructor|]. cbn [map]. constructor; [|exact IH].
  unfold thetas. cbn [In]. destruct ((c =? 920) || (c =? 1012) || (c =? 7615)) eqn:E; lia.
Qed.
Print Assumptions C43_thetas.
Example C43_thetas_example : normalize (fun s => s) [920; 65; 1012; 7615; 952] = [952; 65; 952; 952; 952].
Proof. reflexivity. Qed.

(** C80: a string loads the same with and without quotes around it. *)
Definition quotes (q : str) : Prop := Forall (fun c => c = 34) q.
Definition unquoted (s : str) : Prop := s = [] \/ hd 0 s <> 34 /\ last s 0 <> 34.
Lemma lstrip_quotes q s : quotes q -> lstrip_c 34 (q ++ s) = lstrip_c 34 s.
Proof. intros F. induction F as [|c q -> F IH]; [reflexivity|]. cbn [app lstrip_c]. rewrite Z.eqb_refl. exact IH. Qed.
Lemma lstrip_none c s : hd 0 s <> c -> lstrip_c c s = s.
Proof. destruct s as [|x s]; [reflexivity|]. cbn [hd lstrip_c]. intros H. destruct (Z.eqb_spec x c); congruence. Qed.
Lemma hd_rev (s : str) : hd 0 (rev s) = last s 0.
Proof.
  destruct s as [|a s]; [reflexivity|]. destruct (@exists_last _ (a :: s)) as (m & x & E); [discriminate|].
  rewrite E, rev_app_distr, last_last. reflexivity.
Qed.
Lemma quotes_rev q : quotes q -> quotes (rev q).
Proof. intros F. apply Forall_forall. intros c I. apply in_rev in I. unfold quotes in F. rewrite Forall_forall in F. auto. Qed.
Lemma strip_quotes q s q' : quotes q -> quotes q' -> unquoted s -> strip_c 34 (q ++ s ++ q') = s.
Proof.
  intros Q Q' U. unfold strip_c. rewrite lstrip_quotes by exact Q. destruct s as [|a s].
  - cbn [app]. rewrite <- (app_nil_r q'), lstrip_quotes by exact Q'. reflexivity.
  - destruct U as [U|(H & L)]; [discriminate U|]. set (t := a :: s) in *.
    rewrite (lstrip_none 34 (t ++ q')) by exact H. rewrite rev_app_distr, lstrip_quotes by now apply quotes_rev.
    rewrite lstrip_none by (rewrite hd_rev; exact L). apply rev_involutive.
Qed.
Section Strings.
Context {OS : Type}.
Variable os_gt os_ge : OS -> OS -> bool.
Variable INITIAL illegal_since : OS.
Variable sheet : bytes -> option (token OS).
Variable os_of : model -> str -> OS.
Variable nfc : str -> str.
Variable the_trie : trie OS.
Notation load_string := (load_string OS os_gt os_ge INITIAL illegal_since nfc sheet the_trie os_of).
Notation encode := (encode OS os_gt INITIAL illegal_since nfc).
Notation prog_scan_of := (prog_scan_of OS os_gt INITIAL illegal_since sheet).
Notation decode_str := (decode_str OS os_gt INITIAL illegal_since sheet).
Notation set_tokens := (set_data (tok_version OS os_gt os_ge INITIAL illegal_since sheet os_of)).
Theorem C80_quotes : forall e q s q', issubclass (e_cls e) KString = true -> quotes q -> quotes q' -> unquoted s ->
  load_string e (q ++ s ++ q') = obind (olift (encode the_trie (s2l "smart") s)) (fun r => set_tokens e (fst r)) /\
  load_string e s = load_string e (q ++ s ++ q').
Proof.
  intros e q s q' C Q Q' U. unfold M_Tok.load_string. rewrite C, (strip_quotes q s q' Q Q' U).
  assert (E : strip_c 34 s = s).
  { rewrite <- (strip_quotes [] s [] (Forall_nil _) (Forall_nil _) U) at 2. cbn [app]. now rewrite app_nil_r. }
  rewrite E. split; [|reflexivity]. destruct (e_cls e); try discriminate C; change (owarn_if _ WAsm) with (@nil warning, Ok tt); rewrite obind_ret_l; reflexivity.
Qed.

(** C51: when a program counts as assembly: it contains one of the assembly
    tokens, or it decodes without warning to a text ending like the TI-83 hex
    form, or it decodes with a warning and has the DoorsCS token after its start. *)
Definition contains (p d : bytes) : Prop := exists a b, d = a ++ p ++ b.
Lemma infix_spec p d : infix p d = true <-> contains p d.
Proof.
  induction d as [|x d IH]; cbn [infix].
  - rewrite orb_false_r, starts_with_spec. split; [intros (r & E); exists [], r; exact E|].
    intros (a & b & E). symmetry in E. apply app_eq_nil in E as (-> & E). exists b. now rewrite E.
  - rewrite orb_true_iff, starts_with_spec, IH. split.
    + intros [(r & E)|(a & b & E)]; [exists [], r; exact E|exists (x :: a), b; now rewrite E].
    + intros ([|y a] & b & E); [left; exists b; exact E|right]. injection E as _ E. now exists a, b.
Qed.
Theorem C51_assembly : forall d, is_asm prog_scan_of d = true <->
  contains [187; 109] d \/ contains [239; 105] d \/ contains [239; 123] d \/
  (exists s, decode_str d = ([], Ok (s ++ s2l "End" ++ [10] ++ s2l "0000" ++ [10] ++ s2l "End"))) \/
  (fst (decode_str d) <> [] /\ contains [239; 104] d /\ firstn 2 d <> [239; 104]).
Proof.
  intros d. unfold is_asm, M_Tok.prog_scan_of.
  assert (T : existsb (fun t => infix t d) asm_tokens = true <-> contains [187; 109] d \/ contains [239; 105] d \/ contains [239; 123] d).
  { unfold asm_tokens. cbn [existsb]. rewrite !orb_true_iff, !infix_spec. intuition discriminate. }
  assert (R : exists s, snd (decode_str d) = Ok s).
  { unfold M_Tok.decode_str. destruct (decode_parse os_gt INITIAL illegal_since sheet d) as (n & D & _). rewrite D. eexists. reflexivity. }
  assert (DT : doors_token d = true <-> contains [239; 104] d /\ firstn 2 d <> [239; 104]).
  { unfold doors_token. rewrite andb_true_iff, infix_spec, negb_true_iff. apply and_iff_compat_l.
    destruct (starts_with [239; 104] d) eqn:E.
    - apply starts_with_spec in E as (r & ->). split; [discriminate|]. intros H. exfalso. now apply H.
    - split; [|reflexivity]. intros _ H. assert (X : starts_with [239; 104] d = true).
      { apply starts_with_spec. exists (skipn 2 d). rewrite <- (firstn_skipn 2 d) at 1. now rewrite H. } congruence. }
  destruct (decode_str d) as (w & r). cbn [fst snd] in *. destruct R as (s & ->). destruct w as [|x w].
  - cbn [andb]. rewrite orb_false_r, orb_true_iff, T. unfold ends_with. rewrite starts_with_spec. split.
    + intros [H|(q & H)]; [tauto|]. right. right. right. left. exists (rev q). do 2 f_equal.
      apply (f_equal (@rev Z)) in H. rewrite rev_involutive, rev_app_distr, rev_involutive in H. exact H.
    + intros [H|[H|[H|[(q & H)|(H & _)]]]]; [tauto..| |now contradiction H]. right.
      injection H as H. exists (rev q). rewrite H, rev_app_distr. reflexivity.
  - cbn [andb orb]. rewrite orb_false_r, orb_true_iff, T, DT. split.
    + intros [H|H]; [tauto|]. right. right. right. right. split; [discriminate|exact H].
    + intros [H|[H|[H|[(q & H)|(_ & H)]]]]; try tauto. discriminate H.
Qed.
End Strings.
Print Assumptions C80_quotes.
Print Assumptions C51_assembly.
Definition string0 : entry := Entry KString [13; 0] [4] ([170; 0] ++ zeros 6) [0] [0] (Buf true [1; 0; 65]).
Example C80_quotes_example : quotes [34] /\ unquoted (s2l "AB") /\
  snd (load_string Z Z.gtb Z.geb 0 0 (fun s => s) sheet0 (from_tokens kz) os0 string0 (s2l """AB""")) =
    Ok (with_version (with_data string0 (Buf true [2; 0; 187; 1])) [7]).
Proof. split; [repeat constructor|]. split; [right; split; cbn; lia|vm_compute; reflexivity]. Qed.
Definition hex0 : bytes := [212; 63; 48; 48; 48; 48; 63; 212].
Definition sheet1 (b : bytes) : option (token Z) :=
  if leqb b [212] then Some (tk [212] 0 "End") else if leqb b [48] then Some (tk [48] 0 "0") else sheet0 b.
Example C51_assembly_example : is_asm (prog_scan_of Z Z.gtb 0 0 sheet1) hex0 = true /\
  is_asm (prog_scan_of Z Z.gtb 0 0 sheet1) (firstn 5 hex0 ++ [63; 212]) = false /\
  is_asm (prog_scan_of Z Z.gtb 0 0 sheet1) [65; 239; 104] = true /\ is_asm (prog_scan_of Z Z.gtb 0 0 sheet1) [239; 104; 65] = false.
Proof. repeat split; vm_compute; reflexivity. Qed.

(** C52: grouping an archived entry warns, ungrouping an over-long name warns,
    and nothing else in the VAT does. *)
Theorem C52_archived_warning : forall x w b, vat_of x = (w, Ok b) -> In WGroup w <-> archived x = true.
Proof.
  intros x w b H. unfold vat_of in H. destruct (type_id x) as [t|]; [|discriminate H]. destruct (version x) as [v|]; [|discriminate H].
  unfold owarn_if in H. cbn [olift obind] in H. destruct (cls_eqb _ _); [destruct (archived x); discriminate H|].
  destruct (archived x); cbn [obind owarn oret app] in H;
    destruct (if is_named t then _ else _) as [y|]; try discriminate H; cbn [olift obind oret app] in H; injection H as <- _; cbn; intuition discriminate.
Qed.
Print Assumptions C52_archived_warning.
Lemma name_warning : forall t l w r, read_vat t l = (w, Ok r) ->
  (is_named t = true -> exists y n rest, l = y ++ n :: rest /\ (length y <= 3)%nat /\ (w = [WGroup] <-> 8 < n) /\ (w = [] <-> n <= 8)) /\
  (is_named t = false -> is_list t = true -> exists y n rest, l = y ++ n :: rest /\ (length y <= 3)%nat /\ (w = [WGroup] <-> 7 < n) /\ (w = [] <-> n <= 7)) /\
  (is_named t = false -> is_list t = false -> w = []).
Proof.
  intros t l w r H. unfold read_vat in H.
  assert (Q : forall y0 l0, rd 4 l = (y0, l0) -> forall n page u, rev y0 = n :: page :: u -> exists y rest, l = y ++ n :: rest /\ (length y <= 3)%nat).
  { intros y0 l0 E n page u E2. assert (E1 : firstn 4 l = y0) by (unfold rd in E; congruence). exists (rev (page :: u)), (skipn 4 l). 
    assert (Y : y0 = rev (page :: u) ++ [n]) by (apply (f_equal (@rev Z)) in E2; rewrite rev_involutive in E2; exact E2).
    split; [rewrite <- (firstn_skipn 4 l) at 1; rewrite E1, Y, <- app_assoc; reflexivity|].
    assert (L : (length y0 <= 4)%nat) by (rewrite <- E1, firstn_length; lia). rewrite Y, app_length in L. cbn in L. cbn. lia. }
  destruct (is_named t).
  - split; [intros _|split; discriminate]. destruct (rd 4 l) as (y0, l0) eqn:E. destruct (rev y0) as [|n [|page u]] eqn:E2; [discriminate H..|].
    destruct (Q _ _ eq_refl _ _ _ E2) as (y & rest & A & B). exists y, n, rest. split; [exact A|]. split; [exact B|].
    unfold owarn_if in H. destruct (Z.ltb_spec 8 n); destruct (rd _ _); injection H as <- _; cbn; split; split; intros; try lia; try discriminate; reflexivity.
  - split; [discriminate|]. destruct (is_list t).
    + split; [intros _ _|discriminate]. destruct (rd 4 l) as (y0, l0) eqn:E. destruct (rev y0) as [|n [|page u]] eqn:E2; [discriminate H..|].
      destruct (Q _ _ eq_refl _ _ _ E2) as (y & rest & A & B). exists y, n, rest. split; [exact A|]. split; [exact B|].
      unfold owarn_if in H. destruct (Z.ltb_spec 7 n); destruct (if n =? 0 then _ else _) as (nm, l1); destruct (rd 1 l1); injection H as <- _; cbn; split; split; intros; try lia; try discriminate; reflexivity.
    + split; [discriminate|]. intros _ _. destruct (rd 3 l) as (y0, l0). destruct (rev y0); [discriminate H|]. destruct (rd 3 l0). now injection H as <- _.
Qed.
(** The types whose name has a length byte: programs, appvars, groups; and lists. *)
Definition counted_types : list Z := [5; 6; 21; 23].
Definition list_types : list Z := [1; 13].
Lemma is_named_in t : is_named t = true <-> In t counted_types.
Proof. unfold is_named, counted_types. cbn [In]. lia. Qed.
Lemma is_list_in t : is_list t = true <-> In t list_types.
Proof. unfold is_list, list_types. cbn [In]. lia. Qed.
Theorem C52_name_warning : forall t l w r, read_vat t l = (w, Ok r) ->
  (In t counted_types -> exists y n rest, l = y ++ n :: rest /\ (length y <= 3)%nat /\ (w = [WGroup] <-> 8 < n) /\ (w = [] <-> n <= 8)) /\
  (In t list_types -> exists y n rest, l = y ++ n :: rest /\ (length y <= 3)%nat /\ (w = [WGroup] <-> 7 < n) /\ (w = [] <-> n <= 7)) /\
  (~ In t counted_types -> ~ In t list_types -> w = []).
Proof.
  intros t l w r H. apply name_warning in H as (A & B & C). rewrite is_named_in in A. split; [exact A|].
  assert (D : In t list_types -> is_named t = false) by (unfold is_named, list_types; cbn [In]; lia).
  split; [intros I; apply B; [now apply D|now apply is_list_in]|].
  intros N1 N2. rewrite <- is_named_in in N1. rewrite <- is_list_in in N2. apply C; now apply not_true_is_false.
Qed.
Print Assumptions C52_name_warning.
(** What stands before the data of each member: its type, version and archive flag, and its
    name without the padding, with a length if its type has one. *)
Theorem C52_vat : forall x w b t v, e_type x = [t] -> is_byte t -> e_version x = [v] -> is_byte v -> vat_of x = (w, Ok b) ->
  exists tail, b = [t; 0; v; 0; 0; if archived x then 1 else 0] ++ tail /\
    (In t counted_types -> tail = zlen (rstrip0 (e_name x)) :: rstrip0 (e_name x)) /\
    (In t list_types -> tail = zlen (rstrip0 (e_name x)) + 1 :: rstrip0 (e_name x) ++ [0]) /\
    (~ In t counted_types -> ~ In t list_types -> tail = ljust 3 (rstrip0 (e_name x))).
Proof.
  intros x w b t v T B V Bv H. unfold vat_of in H. rewrite (type_id_byte _ t), obind_lift in H by auto. rewrite (version_byte _ v), obind_lift in H by auto.
  apply obind_ok in H as (? & ? & ? & _ & H & _). destruct (cls_eqb _ _); [discriminate H|].
  apply obind_ok in H as (? & tail & ? & E & H & _). unfold oret in H. injection H as _ <-. exists tail. split; [destruct (archived x); reflexivity|].
  assert (BO : forall l y u, olift (bytes_of l) = (u, Ok y) -> y = l).
  { clear. induction l as [|c l IH]; intros y u H; [injection H as _ <-; reflexivity|]. cbn [bytes_of] in H. destruct (is_byteb c); [|discriminate H].
    destruct (bytes_of l) as [y'|]; [|discriminate H]. cbn in H. injection H as _ <-. f_equal. now apply (IH y' []). }
  rewrite <- is_named_in, <- is_list_in.
  assert (D : is_list t = true -> is_named t = false) by (unfold is_named, is_list; lia).
  destruct (is_named t); [|destruct (is_list t)].
  - apply BO in E. split; [auto|]. split; [intros L; specialize (D L); discriminate D|congruence].
  - apply BO in E. split; [discriminate|]. split; [auto|congruence].
  - injection E as _ <-. split; [discriminate|]. split; [discriminate|auto].
Qed.
Print Assumptions C52_vat.
Example C52_vat_example : snd (vat_of (Entry KRealList [13; 0] [1] (ljust 8 [93; 0]) [0] [0] (Buf true [0; 0]))) = Ok [1; 0; 0; 0; 0; 0; 2; 93; 0] /\
  snd (vat_of (Entry KComplexList [13; 0] [13] (ljust 8 (93 :: s2l "AB")) [11] [128] (Buf true [0; 0]))) = Ok [13; 0; 11; 0; 0; 1; 4; 93; 65; 66; 0] /\
  snd (vat_of (Entry KReal [13; 0] [0] (ljust 8 (s2l "A")) [0] [0] (Buf true (zeros 9)))) = Ok [0; 0; 0; 0; 0; 0; 65; 0; 0].
Proof. repeat split; vm_compute; reflexivity. Qed.
(** Loading entries into a group replaces what it held by what a new group of them holds. *)
Theorem C52_load : forall ns gv ps g es w g', e_cls g = KGroup -> 2 <= zlen (b_data (e_data g)) -> load_from_entries ns gv ps g es = (w, Ok g') ->
  exists w' x, group ns gv ps es (s2l "GROUP") = (w', Ok x) /\ calc_data g' = le16 (zlen (data x)) ++ data x /\ e_cls g' = KGroup.
Proof.
  intros ns gv ps g es w g' K L H. unfold load_from_entries in H. apply obind_ok in H as (w' & x & ? & G & H & _). exists w', x. split; [exact G|].
  apply set_data_sized in H as (A & _ & C); [|rewrite K; reflexivity|rewrite K; discriminate|rewrite K; discriminate|exact L].
  split; [exact A|congruence].
Qed.
Print Assumptions C52_load.
Example C52_load_example : exists w w' g g', group ns0 gv0 ps0 [Entry KReal [13; 0] [0] (ljust 8 (s2l "B")) [0] [0] (Buf true (zeros 9))] (s2l "G") = (w, Ok g) /\ e_cls g = KGroup /\ 2 <= zlen (b_data (e_data g)) /\
  load_from_entries ns0 gv0 ps0 g [hello] = (w', Ok g') /\ data g' <> data g.
Proof.
  do 4 eexists. split; [vm_compute; reflexivity|]. split; [reflexivity|]. split; [unfold zlen; cbn; lia|]. split; [vm_compute; reflexivity|]. vm_compute. discriminate.
Qed.

(** C55: the colours behind the sixteen indices, as 24-bit numbers. *)
Definition hex_colours : list Z :=
  [0xFFFFFF; 0x0000FF; 0xFF0000; 0x000000; 0xFF00FF; 0x009E00; 0xFF8E20; 0xB62000;
   0x000086; 0x0092FF; 0xFFFF00; 0xFFFFFF; 0xE7E3E7; 0xC7C3C7; 0x8E8A8E; 0x515551].
Definition hex_of (c : rgb) : Z := let '(r, g, b) := c in r * 65536 + g * 256 + b.
Theorem C55_colours : forall b, 0 <= b < 256 -> exists x y, palette_get [b] = Ok [x; y] /\
  hex_of x = nth (Z.to_nat (b / 16)) hex_colours 0 /\ hex_of y = nth (Z.to_nat (b mod 16)) hex_colours 0.
Proof.
  assert (F : forallb (fun n => let b := Z.of_nat n in match palette_get [b] with
    | Ok [x; y] => (hex_of x =? nth (Z.to_nat (b / 16)) hex_colours 0) && (hex_of y =? nth (Z.to_nat (b mod 16)) hex_colours 0) | _ => false end)
    (seq 0 256) = true) by (vm_compute; reflexivity).
  intros b B. rewrite forallb_forall in F. specialize (F (Z.to_nat b)). cbv zeta in F. rewrite Z2Nat.id in F by lia.
  assert (I : In (Z.to_nat b) (seq 0 256)) by (apply in_seq; lia). apply F in I. clear F.
  destruct (palette_get [b]) as [[|x [|y [|]]]|]; try discriminate I. exists x, y. split; [reflexivity|]. lia.
Qed.
Print Assumptions C55_colours.

(** C86: the extension tables: two characters for the model, one for the kind. *)
Definition kind_letter (c : fcls) : str := match c with FOperatingSystem | FLicense => s2l "u" | FApp | FHeader => s2l "k" | FCertificate => s2l "q" end.
Definition model_prefix (c : fcls) (m : model) : option str :=
  match c, m with
  | FHeader, _ => None
  | _, TI_84PCSE => Some (s2l "8c")
  | _, TI_84PCE => Some (s2l "8e")
  | (FOperatingSystem | FLicense), TI_82A => Some (s2l "82")
  | (FOperatingSystem | FLicense), TI_83PCE => Some (s2l "8p")
  | (FOperatingSystem | FLicense), TI_82AEP => Some (s2l "8y")
  | (FApp | FCertificate), TI_83P => Some (s2l "8x")
  | _, _ => None
  end.
Theorem C86_table : forall c m, ext_get (flash_extensions c) (Some m) = option_map (fun p => p ++ kind_letter c) (model_prefix c m).
Proof. intros c m. destruct c; destruct m; vm_compute; reflexivity. Qed.
Theorem C86_default : forall c, ext_get (flash_extensions c) None = Some (s2l "8e" ++ kind_letter c).
Proof. intros c. destruct c; reflexivity. Qed.
Print Assumptions C86_table.
Print Assumptions C86_default.
Example C86_table_example : ext_get (flash_extensions FLicense) (Some TI_83PCE) = Some (s2l "8pu").
Proof. reflexivity. Qed.

(** C88: which error: raw bytes for an Intel-hex header (unless empty) have no
    [bytes()], blocks for a binary one are no bytes, anything else meets the
    immutable slot. *)
Theorem C88_error : forall h f v, h_flag h = [f] -> is_byte f -> snd (fdata_assign h v) = Err (
  match v with
  | DRaw [] => TypeError
  | DRaw (_ :: _) => if f =? 1 then AttributeError else TypeError
  | DBlocks l => if f =? 1 then match rmapM block_bytes l with Ok _ => TypeError | Err e => e end else TypeError
  end).
Proof.
  intros h f v F B. assert (E : h_binary_flag h = Ok f).
  { unfold h_binary_flag. rewrite F. clear - B. unfold is_byte in B.
    assert (Q : forallb (fun n => match section_get (bits_get 0 8 [Z.of_nat n]) with Ok x => x =? Z.of_nat n | _ => false end) (seq 0 256) = true) by (vm_compute; reflexivity).
    rewrite forallb_forall in Q. specialize (Q (Z.to_nat f)). rewrite Z2Nat.id in Q by lia.
    assert (I : In (Z.to_nat f) (seq 0 256)) by (apply in_seq; lia). apply Q in I. destruct (section_get _); [|discriminate]. f_equal. lia. }
  unfold fdata_assign, fdata_set. rewrite E. cbn [rbind]. destruct v as [l|[|x b]].
  - destruct (f =? 1); [|reflexivity]. destruct (rmapM block_bytes l); reflexivity.
  - rewrite andb_false_r. reflexivity.
  - cbn [leqb negb]. rewrite andb_true_r. destruct (f =? 1); reflexivity.
Qed.
Print Assumptions C88_error.
Example C88_error_example :
  fdata_assign (FH FApp (s2l "**TIFL**") [0; 0] [1] [136] [0; 0; 0; 0] (s2l "A") [115; 36] [0] [1] true) (DRaw [2]) = ([], Err AttributeError).
Proof. vm_compute. reflexivity. Qed.
