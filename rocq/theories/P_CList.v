(** Texts of lists of complex numbers (C134, C135). *)
From Verif Require Import L_Base M_Data M_Numeric M_Class M_Var M_Real M_Complex M_List M_Text M_CText M_CList S_Data L_Data S_Var L_Var S_Real L_Real L_Frac L_Radical P_Real S_Complex L_Complex P_Complex L_Kinds P_Kinds L_Pi P_Text P_Var S_List L_List P_List P_ListText S_CText P_CText.

(** * The pieces of the text *)
(** A text without commas and brackets. *)
Definition whole (t : str) : Prop := forall c, In c t -> ~ In c (s2l ",[]{}").
Lemma split_whole t r : Forall whole (t :: r) -> split_on 44 (joined [44; 32] (t :: r)) = t :: map (cons 32) r.
Proof.
  revert t. induction r as [|u r IH]; intros t F; apply Forall_cons_iff in F as [S F].
  - cbn [joined map]. apply split_on_none. intros I. apply (S 44 I). now left.
  - rewrite joined_cons. cbn [app]. rewrite split_on_app by (intros I; apply (S 44 I); now left). f_equal.
    cbn [split_on]. change (32 =? 44) with false. cbv iota. rewrite (IH u F). reflexivity.
Qed.
Theorem C134_pieces : forall t r, Forall whole (t :: r) -> list_pieces (list_show (t :: r)) = t :: map (cons 32) r.
Proof.
  intros t r F. unfold list_pieces, list_show. rewrite strip_brackets.
  - now apply split_whole.
  - intros c I. apply in_joined in I as [I|(u & J & K)].
    + intros J. cbn in I, J. lia.
    + rewrite Forall_forall in F. intros Q. apply (F u J c K). now right.
Qed.
Print Assumptions C134_pieces.

(** * What loading leaves alone *)
Lemma view_set_first w D v b : length D = 18%nat -> view_set (Some 18) (View (Some 0) (Some 9)) (oret v) (Buf true D) = (w, Ok b) ->
  exists p, b = Buf true (p ++ skipn 9 D) /\ length p = 9%nat.
Proof.
  intros LD V. unfold view_set in V. change (option_map Z.to_nat (view_length (Some 18) (View (Some 0) (Some 9)))) with (Some 9%nat) in V.
  apply obind_ok in V as (w1 & x & w2 & S & V & _). cbn [b_mut b_data v_start v_stop] in V. injection V as _ V. subst b.
  assert (LX : length x = 9%nat).
  { unfold section_set_raw in S. apply obind_ok in S as (w3 & v' & w4 & S1 & S & _). unfold fit_section in S. apply obind_ok in S as (w5 & u & w6 & _ & S & _).
    match type of S with oret ?a = _ => assert (X : x = a) by (unfold oret in S; congruence) end. rewrite X. apply ljust_length. match goal with |- context [if ?t then _ else _] => destruct t eqn:Q end; [apply firstn_le_length|now apply Nat.ltb_ge in Q]. }
  exists x. split; [|exact LX]. f_equal. clear - LD. list_n D LD 18%nat. reflexivity.
Qed.
Lemma set_real_keeps e x w e1 y D : e_data e = Buf true D -> length D = 18%nat -> set_real e x = (w, Ok (e1, y)) ->
  exists p, e1 = with_data e (Buf true (p ++ skipn 9 D)) /\ length p = 9%nat.
Proof.
  intros ED LD H. unfold set_real in H. apply obind_ok in H as (w1 & x' & w2 & M & H & _). apply obind_ok in H as (w3 & b & w4 & V & H & _).
  injection H as _ H1 H2. subst e1 y. rewrite ED in V. apply view_set_first in V as (p & -> & L); [|exact LD]. now exists p.
Qed.
Lemma try_types_keeps fp sub p e D : e_data e = Buf true D -> length D = 18%nat -> forall l w e1, try_types fp l sub p e = (w, Ok e1) ->
  exists p, e1 = with_data e (Buf true (p ++ skipn 9 D)) /\ length p = 9%nat.
Proof.
  intros ED LD. induction l as [|[id c] l IH]; intros w e1 H; [discriminate H|]. cbn [try_types] in H.
  destruct (negb (issubclass c KRealEntry) || (id =? sub)); [now apply IH in H|].
  destruct (do x := real_new fp c p in set_real e x) as [w1 [[e2 y]|x]] eqn:E.
  - injection H as _ <-. apply obind_ok in E as (w2 & z & w3 & _ & E & _). now apply set_real_keeps with (D := D) in E.
  - destruct (caught x); [|discriminate H]. destruct (try_types fp l sub p e) as [w2 r2] eqn:T. injection H as _ ->. now apply (IH w2).
Qed.
(** A load that succeeds: the imaginary text was read in the kind of the present
    imaginary part, and the metadata are as before. *)
Lemma complex_load_inv fp s e w e' D c t k : e_data e = Buf true D -> length D = 18%nat -> In (c, t, k) part_kinds -> nth 9 D 0 mod 64 = t ->
  complex_load fp s e = (w, Ok e') ->
  exists p q w1 y, complex_parts s = Ok (p, q) /\ real_new fp c q = (w1, Ok y) /\ e_meta e' = e_meta e /\ e_version e' = e_version e.
Proof.
  intros ED LD K T H. unfold complex_load in H. apply obind_ok in H as (w1 & [p q] & w2 & P & H & _).
  apply obind_ok in H as (w3 & e1 & w4 & R & H & _). apply obind_ok in H as (w5 & c' & w6 & C & H & _). apply obind_ok in H as (w7 & y & w8 & Y & H & _).
  apply obind_ok in H as (w9 & [e2 z] & w10 & S & H & _). injection H as _ H. subst e2.
  assert (E1 : exists p, e1 = with_data e (Buf true (p ++ skipn 9 D)) /\ length p = 9%nat).
  { destruct (do c := olift (real_type e) in do x := real_new fp c p in set_real e x) as [u [[e2 v]|x]] eqn:Q.
    - injection R as _ <-. apply obind_ok in Q as (? & ? & ? & _ & Q & _). apply obind_ok in Q as (? & ? & ? & _ & Q & _). now apply set_real_keeps with (D := D) in Q.
    - destruct (caught x); [|discriminate R]. apply obind_ok in R as (? & ? & ? & _ & R & _). apply obind_ok in R as (? & ? & ? & _ & R & _).
      now apply try_types_keeps with (D := D) in R. }
  destruct E1 as (p1 & -> & L1).
  assert (IT : imag_type (with_data e (Buf true (p1 ++ skipn 9 D))) = Ok c).
  { apply (part_types (with_data e (Buf true (p1 ++ skipn 9 D))) (p1 ++ skipn 9 D) c t k eq_refl); [rewrite app_length, skipn_length; lia|exact K|]. rewrite <- T. clear - LD L1. list_n D LD 18%nat. list_n p1 L1 9%nat. reflexivity. }
  rewrite IT in C. injection C as _ <-.
  exists p, q, w7, y. split; [|split; [exact Y|]].
  - unfold olift in P. injection P as _ P. exact P.
  - unfold set_imag in S. destruct (imag_subtype (r_cls y)) as [t'|]; [|discriminate S]. apply obind_ok in S as (? & b & ? & _ & S & _). apply obind_ok in S as (? & x' & ? & _ & S & _).
    apply obind_ok in S as (? & e3 & ? & CO & S & _). apply obind_ok in S as (? & b' & ? & _ & S & _). injection S as _ S _. subst e'.
    unfold coerce_complex in CO. apply obind_ok in CO as (? & ty & ? & _ & CO & _).
    apply obind_ok in CO as (? & e4 & ? & ST & CO & _). apply obind_ok in CO as (? & ty' & ? & _ & CO & _).
    assert (E4 : e_meta e4 = e_meta e /\ e_version e4 = e_version e).
    { unfold set_type_id in ST. apply obind_ok in ST as (? & ? & ? & _ & ST & _). injection ST as _ <-. split; reflexivity. }
    destruct (get_type ty') as [k'|]; [injection CO as _ <-; exact E4|]. apply obind_ok in CO as (? & ? & ? & _ & CO & _). injection CO as _ <-. exact E4.
Qed.

(** * One element *)
Definition blank (nm : bytes) : entry := Entry KComplexEntry [13; 0] [255] nm [0] [0] (Buf true (12 :: zeros 8 ++ 12 :: zeros 8)).
Lemma elem_new_blank ns ps : names_ok ns -> exists nm, elem_new ns ps KComplexEntry true [] = oret (blank nm).
Proof.
  intros N. destruct (name_fit ns ps N KComplexEntry) as (nm & E & LN); [right; now left|]. exists nm. unfold elem_new, entry_new. cbv iota. rewrite E.
  change (meta_convert _ None 13) with (oret [13; 0]). rewrite obind_oret.
  change (section_set_raw (Some 1%nat) (bits_set 0 8 (match type_id_of KComplexEntry with Some t => t | None => 255 end) None)) with (oret [255]).
  rewrite !obind_oret. vm_compute. reflexivity.
Qed.
Lemma ctext_elem_ok ns ps fp nm s w e' : elem_new ns ps KComplexEntry true [] = oret (blank nm) -> complex_load fp s (blank nm) = (w, Ok e') ->
  issubclass (e_cls e') KComplexEntry = true -> data_view (e_cls e') = (View None None, DData) -> length (calc_data e') = 18%nat ->
  exists e1, ctext_elem ns ps fp s = (w, Ok e1) /\ e_cls e1 = e_cls e' /\ calc_data e1 = calc_data e'.
Proof.
  intros B L K V LD.
  assert (VM : e_meta e' = [13; 0] /\ e_version e' = [0]).
  { destruct (complex_load_inv fp s (blank nm) w e' (12 :: zeros 8 ++ 12 :: zeros 8) KReal 12 KComplex eq_refl eq_refl (or_introl eq_refl) eq_refl L) as (p & q & w1 & y & _ & _ & M & W).
    now split. }
  destruct VM as [M W]. unfold ctext_elem. rewrite B, obind_oret, L.
  assert (X : exists e1, (do v := elem_version e' None in set_version e' v) = oret e1 /\ e_cls e1 = e_cls e' /\ calc_data e1 = calc_data e').
  { assert (LDD : length (data e') = 18%nat).
    { unfold data. rewrite V. unfold view_get. cbn [fst v_start v_stop]. rewrite py_slice_all. exact LD. }
    destruct (complex_version_cases' ps e' K LDD) as [E|[E|E]]; rewrite E, obind_oret; unfold set_version, meta_length; rewrite M, W;
      (eexists; split; [reflexivity|]; split; reflexivity). }
  destruct X as (e1 & X & X1 & X2). exists e1. split; [|now split]. cbn [obind]. rewrite X. unfold oret. now rewrite app_nil_r.
Qed.
Lemma complex_load_space fp s e : complex_load fp (32 :: s) e = complex_load fp s e.
Proof. unfold complex_load, complex_parts, complex_norm. replace (squash (32 :: s)) with (squash s) by reflexivity. reflexivity. Qed.
Lemma ctext_elem_space ns ps fp s : ctext_elem ns ps fp (32 :: s) = ctext_elem ns ps fp s.
Proof. unfold ctext_elem. destruct (elem_new ns ps KComplexEntry true []) as [w [e|x]]; [|reflexivity]. cbn [obind]. now rewrite complex_load_space. Qed.
Lemma complex_text_data e : complex_text e = complex_text (with_data e (Buf true (calc_data e))).
Proof. destruct e as [k m t n v a [b d]]. reflexivity. Qed.

(** Element [x] prints a text that is read, with warnings [w], as a plain complex number of bytes [y]. *)
Definition celem_reads ns ps fp (x : entry) (y : list warning * bytes) : Prop :=
  exists s e1, complex_text x = oret s /\ whole s /\ ctext_elem ns ps fp s = (fst y, Ok e1) /\
    e_cls e1 = KComplex /\ calc_data e1 = snd y /\ complex_payload KComplex (snd y).
Lemma omapM_cons {A B} (f : A -> out B) x l : omapM f (x :: l) = do y := f x in do ys := omapM f l in oret (y :: ys).
Proof. reflexivity. Qed.
Lemma celems_read ns ps fp zs ys : Forall2 (celem_reads ns ps fp) zs ys ->
  exists ts es, omapM complex_text zs = oret ts /\ Forall whole ts /\ length ts = length zs /\
    (forall ts', Forall2 (fun t t' => t' = t \/ t' = 32 :: t) ts ts' -> omapM (ctext_elem ns ps fp) ts' = (concat (map fst ys), Ok es)) /\
    map e_cls es = map (fun _ => KComplex) ys /\ map calc_data es = map snd ys /\ Forall (fun e => complex_payload (e_cls e) (calc_data e)) es.
Proof.
  induction 1 as [|x [w y] zs ys (s & e1 & T & W & L & C & D & P) R (ts & es & IT & IW & IL & IR & IC & ID & IP)].
  - exists [], []. repeat split; try constructor. intros ts' H. inversion H. reflexivity.
  - cbn [fst snd] in *. exists (s :: ts), (e1 :: es). split; [rewrite omapM_cons, T, obind_oret, IT, obind_oret; reflexivity|].
    split; [now constructor|]. split; [cbn [length]; lia|]. split.
    + intros ts' H. inversion H as [|? t' ? ts2 H1 H2]; subst. rewrite omapM_cons.
      assert (L' : ctext_elem ns ps fp t' = (w, Ok e1)) by (destruct H1 as [->| ->]; [exact L|now rewrite ctext_elem_space]).
      rewrite L'. cbn [obind]. rewrite (IR ts2 H2). cbn [obind map concat fst]. unfold oret. now rewrite app_nil_r.
    + cbn [map snd]. split; [congruence|]. split; [congruence|]. constructor; [|exact IP]. now rewrite C, D.
Qed.
(** ** C134: the text of a list of complex numbers *)
Theorem C134_list : forall ns ps fp e zs ys e0 D, names_ok ns -> list_elems ns ps e = oret zs -> zs <> [] -> zlen zs < 65536 ->
  Forall2 (celem_reads ns ps fp) zs ys -> e_cls e0 = KComplexList -> flash_entry e0 -> e_data e0 = Buf true D -> (2 <= length D)%nat ->
  exists s e1 es, clist_text ns ps e = oret s /\
    clist_load_string ns ps fp s e0 = (concat (map fst ys) ++ (if 999 <? zlen zs then [WListLength] else []), Ok e1) /\
    list_elems ns ps e1 = oret es /\ map e_cls es = map (fun _ => KComplex) ys /\ map calc_data es = map snd ys /\
    list_length e1 = zlen zs /\ data e1 = concat (map snd ys) /\ e_cls e1 = KComplexList.
Proof.
  intros ns ps fp e zs ys e0 D N E NE Z R K FE ED LD. destruct (celems_read ns ps fp zs ys R) as (ts & xs & T & W & L & X & XC & XD & XP).
  destruct ts as [|t ts]; [destruct zs; [congruence|discriminate L]|].
  assert (PX : omapM (ctext_elem ns ps fp) (list_pieces (list_show (t :: ts))) = (concat (map fst ys), Ok xs)).
  { rewrite (C134_pieces t ts W). apply X. constructor; [now left|]. clear. induction ts as [|u ts IH]; [constructor|]. cbn [map]. constructor; [now right|exact IH]. }
  assert (LZ : zlen xs = zlen zs) by (unfold zlen; rewrite <- (map_length calc_data xs), XD, map_length; f_equal; apply Forall2_len in R; lia).
  destruct (C36_roundtrip ns ps e0 D xs N) as (e1 & es' & Q1 & Q2 & Q3 & Q4 & Q5 & Q6 & Q7 & Q8 & Q9); auto; [rewrite K; right; now left|lia| |].
  { intros x I. rewrite K. cbn [payload_for]. rewrite Forall_forall in XP. now apply XP. }
  exists (list_show (t :: ts)), e1, es'. split; [unfold clist_text; rewrite E, obind_oret, T, obind_oret; reflexivity|].
  split; [unfold clist_load_string; rewrite PX; cbn [obind]; rewrite Q1, LZ; reflexivity|]. split; [exact Q2|].
  assert (G : map e_cls es' = map e_cls xs /\ map calc_data es' = map calc_data xs).
  { clear - Q3. induction Q3 as [|x y l l' [A B] Q [I J]]; [split; reflexivity|]. cbn [map]. split; congruence. }
  destruct G as [G1 G2]. split; [congruence|]. split; [congruence|]. split; [lia|]. split; [rewrite Q5; congruence|congruence].
Qed.
Print Assumptions C134_list.

(** ** Decimal elements *)
Lemma decimal_chars low neg x m d : stored_real low neg x m d ->
  exists t, real_string (Buf true d) = Ok t /\ forall c, In c t -> c = 45 \/ c = 46 \/ 48 <= c <= 57.
Proof.
  intros (HL & P & X & M). assert (BL : is_byte low) by (unfold is_byte; lia). destruct M as [M|(-> & -> & ->)].
  - apply payload_stored in P; [|lia|lia]. assert (PB : Buf true d = stored low neg x m) by (rewrite P; reflexivity). rewrite PB.
    destruct (real_string_stored low neg x m BL X ltac:(lia)) as (l & W & N & S & Sq & V & SG & NI & NX).
    exists (lit_text l). split; [exact S|]. assert (SG' : l_sign l = [] \/ l_sign l = s2l "-") by (rewrite SG; destruct neg; auto).
    intros c; now apply lit_chars.
  - apply payload_stored in P; [|lia|lia]. assert (PB : Buf true d = stored low false 128 0) by (rewrite P; reflexivity). rewrite PB.
    exists (s2l "0"). split; [now apply real_string_zero|]. intros c I; cbn in I; lia.
Qed.
Lemma replacer_chars x y z u s c : In c (replacer s [(x, y); (z, u)]) -> In c s \/ In c y \/ In c u.
Proof. unfold replacer. cbn [fold_left fst snd]. intros I. apply replace_back in I as [I|I]; [|auto]. apply replace_back in I as [I|I]; auto. Qed.
(** The characters of a text of two parts. *)
Lemma show_chars a c b x : In x (complex_show a c b) -> In x a \/ In x b \/ In x (s2l " +-*i/").
Proof.
  assert (M : forall y, In y (make_imag c b) -> In y b \/ In y (s2l " +-*i/")).
  { intros y I. unfold make_imag in I. destruct c; try (apply in_app_or in I as [I|I]; [now left|right; cbn in I |- *; lia]);
      (apply replace_back in I as [I|I]; [now left|right; cbn in I |- *; lia]). }
  unfold complex_show. intros I. destruct (leqb b (s2l "0")); [now left|]. destruct (leqb a (s2l "0")); [right; now apply M|].
  apply replacer_chars in I as [I|[I|I]].
  - apply in_app_or in I as [I|I]; [now left|]. apply in_app_or in I as [I|I]; [right; right; cbn in I |- *; lia|]. right. now apply M.
  - right. right. cbn in I |- *. lia.
  - right. right. cbn in I |- *. lia.
Qed.
Lemma show_whole a c b : whole a -> whole b -> whole (complex_show a c b).
Proof. intros A B x I. apply show_chars in I as [I|[I|I]]; [now apply A|now apply B|]. intros J. cbn in I, J. lia. Qed.
(** A complex number of two decimals with given signs, exponent bytes and digits. *)
Definition two_decimals (v : (bool * Z * Z) * (bool * Z * Z)) (d : bytes) : Prop :=
  let '((na, xa, ma), (nb, xb, mb)) := v in
  exists da db, d = da ++ db /\ stored_real 12 na xa ma da /\ stored_real 12 nb xb mb db.
(** Neither part has digits beyond the fourteenth decimal place, and the number is
    not something nonzero minus i. *)
Definition survives (v : (bool * Z * Z) * (bool * Z * Z)) : Prop :=
  let '((na, xa, ma), (nb, xb, mb)) := v in short xa ma /\ short xb mb /\ ~ (ma <> 0 /\ nb = true /\ xb = 128 /\ mb = 10 ^ 13).
Lemma payload_same low n x m d d' : 0 <= low < 128 -> 0 <= m < 10 ^ 14 -> payload low n x m d -> (payload low n x m d' <-> d' = d).
Proof.
  intros L M P. split; [|now intros ->]. intros P'. apply payload_stored in P, P'; auto. congruence.
Qed.
Lemma tagged_stored low n x m d : stored_real low n x m d -> nth 0 d 0 mod 128 = low.
Proof. intros (HL & (_ & N & _) & _). rewrite N. destruct n; lia. Qed.
Lemma app_halves {A} (a b c d : list A) : length a = length c -> (a ++ b = c ++ d <-> a = c /\ b = d).
Proof.
  intros L. split; [|now intros [-> ->]]. revert c L. induction a as [|x a IH]; intros [|y c] L H; try discriminate L; [now split|].
  cbn [app] in H. injection H as -> H. injection L as L. destruct (IH c L H). now subst.
Qed.
Lemma own_decimal fp t n x m : real_load t (Buf true (zeros 9)) = (stored 0 n x m, oret tt) -> is_byte x -> 0 <= m < 10 ^ 14 -> own fp KReal t (b_data (stored 0 n x m)).
Proof.
  intros E X M. destruct (stored_fields 0 n x m ltac:(unfold is_byte; lia) X M) as [L W]. split; [|now split]. apply real_new_real. exact E.
Qed.
Lemma decimal_elem ns ps fp x v : names_ok ns -> two_decimals v (calc_data x) ->
  exists y, celem_reads ns ps fp x ([], y) /\ (y = calc_data x <-> survives v).
Proof.
  intros N. destruct v as [[[na xa] ma] [[nb xb] mb]]. intros (da & db & ED & SA & SB).
  destruct (elem_new_blank ns ps N) as (nm & EB). assert (B255 : is_byte 255) by (unfold is_byte; lia).
  destruct (C77_string_roundtrip_iff fp (blank nm) 255 (12 :: zeros 8 ++ 12 :: zeros 8) 12 na xa ma da 12 nb xb mb db) as (s & e' & da' & db' & CS & CL & KC & DE & LA & LB & IFF); auto.
  { repeat constructor; unfold is_byte; lia. }
  assert (MA : 0 <= ma < 10 ^ 14) by (destruct SA as (_ & _ & _ & [?|(-> & _)]); lia).
  assert (MB : 0 <= mb < 10 ^ 14) by (destruct SB as (_ & _ & _ & [?|(-> & _)]); lia).
  destruct (stored_wf _ _ _ _ _ SA) as [L1 W1]. destruct (stored_wf _ _ _ _ _ SB) as [L2 W2].
  destruct (part_text _ _ _ _ _ SA) as (ga & A & PA & SRA & na' & xa' & ma' & RA & XA & MA' & _).
  destruct (part_text _ _ _ _ _ SB) as (gb & B & PB & SRB & nb' & xb' & mb' & RB & XB & MB' & _).
  set (a := sg ga ++ A) in *. set (b := sg gb ++ B) in *.
  assert (ES : s = ctext a b).
  { unfold complex_string in CS. rewrite SRA, SRB in CS. cbn [rbind] in CS. unfold ctext. destruct (leqb b (s2l "0")); [congruence|]. destruct (leqb a (s2l "0")); congruence. }
  assert (ES' : s = complex_show a KReal b) by (rewrite ES; reflexivity).
  assert (TX : complex_text x = oret s).
  { rewrite complex_text_data. unfold complex_text.
    destruct (get_parts (with_data x (Buf true (calc_data x))) da db KReal 12 KComplex KReal 12 KComplex) as [GR GI]; auto.
    - now rewrite ED.
    - now left.
    - now left.
    - pose proof (tagged_stored _ _ _ _ _ SA). lia.
    - pose proof (tagged_stored _ _ _ _ _ SB). lia.
    - rewrite GR, obind_oret. cbn [r_cls r_buf real_text]. rewrite SRA. unfold olift at 1. rewrite obind_ret_l, GI, obind_oret. cbn [r_cls r_buf real_text]. rewrite SRB.
      unfold olift. rewrite obind_ret_l. now rewrite ES'. }
  assert (WS : whole s).
  { rewrite ES'. destruct (decimal_chars _ _ _ _ _ SA) as (u & U1 & U2). destruct (decimal_chars _ _ _ _ _ SB) as (u' & U1' & U2'). rewrite SRA in U1. rewrite SRB in U1'.
    injection U1 as <-. injection U1' as <-. apply show_whole; intros c I J; [apply U2 in I|apply U2' in I]; cbn in J; lia. }
  (* the bytes read *)
  pose proof (ctext_parts ga A gb B PA PB) as CP. fold a b in CP. rewrite <- ES in CP.
  set (q := if negb (leqb a (s2l "0")) && leqb b (s2l "-1") then s2l "-" else b) in *.
  assert (OQ : exists n x m, own fp KReal q (b_data (stored 0 n x m)) /\ is_byte x /\ 0 <= m < 10 ^ 14).
  { unfold q. destruct (negb (leqb a (s2l "0")) && leqb b (s2l "-1")).
    - exists true, 128, 0. split; [|split; [unfold is_byte; lia|lia]]. apply own_decimal; [vm_compute; reflexivity|unfold is_byte; lia|lia].
    - exists nb', xb', mb'. split; [now apply own_decimal|now split]. }
  destruct OQ as (nq & xq & mq & (OQ & LQ & WQ) & XQ & MQ).
  destruct (own_decimal fp a na' xa' ma' RA XA MA') as (OA & LA0 & WA0).
  destruct (complex_load_gen fp s (blank nm) 255 (12 :: zeros 8 ++ 12 :: zeros 8) a q KReal 12 KComplex KReal 12 KComplex (b_data (stored 0 na' xa' ma')) CP) as [G _]; auto.
  { repeat constructor; unfold is_byte; lia. }
  { now left. }
  { now left. }
  specialize (G _ OQ LQ WQ). rewrite CL in G. apply (f_equal snd) in G. cbn [snd oret] in G.
  match type of G with Ok _ = Ok ?x => assert (GE : e' = x) by congruence end. clear G. subst e'. cbn [e_data with_cls with_type with_data] in DE. apply (f_equal b_data) in DE. cbn [b_data] in DE.
  apply app_halves in DE as [DA DB]; [|rewrite retag_length; congruence]. rewrite retag_stored in DA, DB.
  destruct (stored_fields 12 na' xa' ma' ltac:(unfold is_byte; lia) XA MA') as [_ WA1]. destruct (stored_fields 12 nq xq mq ltac:(unfold is_byte; lia) XQ MQ) as [_ WB1].
  rewrite DA in WA1. rewrite DB in WB1.
  assert (PY : complex_payload KComplex (da' ++ db')).
  { split; [rewrite app_length; lia|]. split; [apply wf_bytes_app; now split|]. rewrite app_nth2 by lia. rewrite LA. rewrite <- DB. left. destruct nq; reflexivity. }
  destruct (ctext_elem_ok ns ps fp nm s [] _ EB CL) as (e1 & CE & C1 & C2); [reflexivity|reflexivity| |].
  { unfold calc_data. cbn [e_data with_cls with_type with_data b_data]. rewrite app_length, !retag_length. lia. }
  exists (da' ++ db'). split.
  - exists s, e1. split; [exact TX|]. split; [exact WS|]. split; [exact CE|]. split; [exact C1|]. split; [|exact PY].
    rewrite C2. unfold calc_data. cbn [e_data with_cls with_type with_data b_data snd]. rewrite !retag_stored. congruence.
  - cbn [survives]. rewrite <- IFF, ED. etransitivity; [apply app_halves; congruence|]. symmetry.
    rewrite (payload_same 12 na xa ma da da' ltac:(lia) MA ltac:(apply SA)), (payload_same 12 nb xb mb db db' ltac:(lia) MB ltac:(apply SB)). reflexivity.
Qed.
Lemma decimal_elems ns ps fp zs vs : names_ok ns -> Forall2 (fun x v => two_decimals v (calc_data x)) zs vs ->
  exists ys, Forall2 (celem_reads ns ps fp) zs (map (pair []) ys) /\ (ys = map calc_data zs <-> Forall survives vs).
Proof.
  intros N. induction 1 as [|x v zs vs H R (ys & F & I)]; [exists []; split; [constructor|split; constructor]|].
  destruct (decimal_elem ns ps fp x v N H) as (y & Y & J). exists (y :: ys). split; [now constructor|]. cbn [map]. rewrite Forall_cons_iff, <- I, <- J.
  split; [intros E; injection E as -> ->; now split|now intros [-> ->]].
Qed.
(** A list of complex numbers of two decimals always loads from its own text,
    without warnings but the one about long lists, and gives the same list exactly
    when every element survives. *)
Theorem C134_decimal_iff : forall ns ps fp e zs vs e0 D, names_ok ns -> list_elems ns ps e = oret zs -> zs <> [] -> zlen zs < 65536 ->
  Forall2 (fun x v => two_decimals v (calc_data x)) zs vs -> e_cls e0 = KComplexList -> flash_entry e0 -> e_data e0 = Buf true D -> (2 <= length D)%nat ->
  exists s e1 es, clist_text ns ps e = oret s /\
    clist_load_string ns ps fp s e0 = (if 999 <? zlen zs then [WListLength] else [], Ok e1) /\
    list_elems ns ps e1 = oret es /\ Forall (fun x => e_cls x = KComplex) es /\ zlen es = zlen zs /\ list_length e1 = zlen zs /\ e_cls e1 = KComplexList /\
    (map calc_data es = map calc_data zs <-> Forall survives vs).
Proof.
  intros ns ps fp e zs vs e0 D N E NE Z R K FE ED LD. destruct (decimal_elems ns ps fp zs vs N R) as (ys & F & I).
  destruct (C134_list ns ps fp e zs _ e0 D N E NE Z F K FE ED LD) as (s & e1 & es & A1 & A2 & A3 & A4 & A5 & A6 & A7 & A8).
  exists s, e1, es. split; [exact A1|]. split.
  { rewrite A2. f_equal. replace (concat (map fst (map (pair []) ys))) with (@nil warning); [reflexivity|]. clear. induction ys as [|y ys IH]; [reflexivity|exact IH]. }
  split; [exact A3|]. split.
  { clear - A4. revert es A4. generalize (map (pair (@nil warning)) ys). intros l. induction l as [|y l IH]; intros [|x es] H; try discriminate H; constructor.
    - now injection H.
    - apply IH. now injection H. }
  assert (A5' : map calc_data es = ys) by (rewrite A5, map_map; apply map_id).
  split; [unfold zlen; f_equal; rewrite <- (map_length calc_data es), A5'; apply Forall2_len in F; rewrite map_length in F; lia|]. split; [exact A6|]. split; [exact A8|]. now rewrite A5'.
Qed.
Print Assumptions C134_decimal_iff.

(** ** Exact elements *)
(** The first kind of real number that reads text [a] is [c], as bytes [d]. *)
Definition first_reads fp (a : str) (c : cls) (d : bytes) : Prop :=
  exists pre post, real_order = pre ++ c :: post /\ (forall k, In k pre -> refuses fp k a) /\ own fp c a d.
(** An element whose real text is first read by some kind and whose imaginary text
    is a decimal comes back with the real part in that kind and a plain imaginary part. *)
Theorem C134_element : forall ns ps fp x dr di cr tr xr ci ti xi a b c t k dr' di', names_ok ns ->
  calc_data x = dr ++ di -> length dr = 9%nat -> wf_bytes dr -> length di = 9%nat -> wf_bytes di ->
  In (cr, tr, xr) part_kinds -> In (ci, ti, xi) part_kinds -> nth 0 dr 0 mod 64 = tr -> nth 0 di 0 mod 64 = ti ->
  real_text cr (Buf true dr) = Ok a -> real_text ci (Buf true di) = Ok b -> signed_plain a -> signed_plain b -> whole a -> whole b -> ~ misread a ci b ->
  In (c, t, k) part_kinds -> first_reads fp a c dr' -> own fp KReal b di' ->
  exists w, celem_reads ns ps fp x (w, retag t dr' ++ retag 12 di').
Proof.
  intros ns ps fp x dr di cr tr xr ci ti xi a b c t k dr' di' N CD L1 W1 L2 W2 K1 K2 T1 T2 XA XB SA SB WA WB NM KC (pre & post & RO & RF & (OA & LA & WA')) (OB & LB & WB').
  destruct (elem_new_blank ns ps N) as (nm & EB). assert (B255 : is_byte 255) by (unfold is_byte; lia).
  destruct (get_parts (with_data x (Buf true (calc_data x))) dr di cr tr xr ci ti xi) as [GR GI]; auto; [now rewrite CD|].
  apply (C108_pieces_iff a ci ti xi b SA SB K2) in NM.
  set (s := complex_show a ci b) in *. set (B0 := 12 :: zeros 8 ++ 12 :: zeros 8).
  assert (WF0 : wf_bytes B0) by (repeat constructor; unfold is_byte; lia).
  assert (K0 : In (KReal, 12, KComplex) part_kinds) by now left.
  assert (LO : exists w, complex_load fp s (blank nm) = (w, Ok (with_cls (with_type (with_data (blank nm) (Buf true (retag t dr' ++ retag 12 di'))) [12]) KComplex))).
  { destruct pre as [|p0 pre].
    - injection RO as <- <-. assert (T12 : t = 12) by (clear - KC; cbn in KC; intuition congruence). subst t.
      destruct (complex_load_gen fp s (blank nm) 255 B0 a b KReal 12 KComplex KReal 12 KComplex dr' NM) as [G _]; auto. exists []. apply (G di'); auto.
    - assert (p0 = KReal) by (unfold real_order in RO; now injection RO). subst p0.
      apply (complex_load_search fp s (blank nm) 255 B0 a b KReal 12 KComplex KReal 12 KComplex (KReal :: pre) c t k post dr' di' NM); auto. apply RF. now left. }
  destruct LO as [w CL]. exists w.
  destruct (part_kind_sub c t k KC) as (_ & _ & _ & TR). destruct (retag_same t dr' LA WA' TR) as [_ Wr]. destruct (retag_same 12 di' LB WB' ltac:(lia)) as [_ Wi].
  destruct (ctext_elem_ok ns ps fp nm s w _ EB CL) as (e1 & CE & C1 & C2); [reflexivity|reflexivity| |].
  { unfold calc_data. cbn [e_data with_cls with_type with_data b_data]. rewrite app_length, !retag_length. lia. }
  exists s, e1. split.
  { rewrite complex_text_data. unfold complex_text. rewrite GR, obind_oret. cbn [r_cls r_buf]. rewrite XA. unfold olift at 1. rewrite obind_ret_l, GI, obind_oret.
    cbn [r_cls r_buf]. rewrite XB. unfold olift. now rewrite obind_ret_l. }
  split; [now apply show_whole|]. split; [exact CE|]. split; [exact C1|]. split; [exact C2|]. cbn [snd].
  split; [rewrite app_length, !retag_length; lia|]. split; [apply wf_bytes_app; now split|].
  rewrite app_nth2 by (rewrite retag_length; lia). rewrite retag_length, LA. left. f_equal.
  destruct di' as [|z di']; [discriminate LB|]. apply Forall_cons_iff in WB' as [Bz _]. cbn [retag nth Nat.sub]. unfold is_byte in Bz. lia.
Qed.
Print Assumptions C134_element.

(** * C135: imaginary parts that are no decimals *)
(** The text of an element whose imaginary part is shown with a bar, a root or a
    pi sign is refused. *)
Lemma refused_text fp nm na A nb B c t k ch : plain A -> plain B -> In (c, t, k) part_kinds -> foreign ch -> In ch B -> ~ In 101 B -> ~ In 69 B -> (barred c -> In 47 B) ->
  exists w x, complex_load fp (complex_show (sg na ++ A) c (sg nb ++ B)) (blank nm) = (w, Err x).
Proof.
  intros PA PB K F I NE NE' BA. set (s := complex_show (sg na ++ A) c (sg nb ++ B)).
  destruct (complex_load fp s (blank nm)) as [w [e'|x]] eqn:CL; [exfalso|now exists w, x].
  destruct (complex_load_inv fp s (blank nm) w e' (12 :: zeros 8 ++ 12 :: zeros 8) KReal 12 KComplex eq_refl eq_refl (or_introl eq_refl) eq_refl CL) as (p & q & w1 & y & CP & Y & _).
  pose proof (show_pieces c na A nb B PA PB) as SP. cbv zeta in SP. fold s in SP. rewrite CP in SP. destruct (kind_class c t k K) as [KB _].
  assert (Z : leqb (sg nb ++ B) (s2l "0") = false).
  { destruct (leqb (sg nb ++ B) (s2l "0")) eqn:Q; [|reflexivity]. apply leqb_str in Q. assert (J : In ch (s2l "0")) by (rewrite <- Q; apply in_or_app; now right).
    destruct F as [->|[->| ->]]; cbn in J; lia. }
  rewrite Z in SP.
  assert (G : exists ch', foreign ch' /\ In ch' q /\ ~ In 101 q /\ ~ In 69 q).
  { assert (SG : forall c, In c (sg nb) -> c = 45) by (intros u U; destruct nb; cbn in U; lia).
    assert (BB : forall q', q' = sg nb ++ B -> exists ch', foreign ch' /\ In ch' q' /\ ~ In 101 q' /\ ~ In 69 q').
    { intros q' ->. exists ch. split; [exact F|]. split; [apply in_or_app; now right|]. split; intros J; apply in_app_or in J as [J|J]; try contradiction; apply SG in J; lia. }
    destruct (leqb (sg na ++ A) (s2l "0")) in SP.
    - assert (Q : is_barred c && negb (memb 47 B) = false).
      { destruct (is_barred c) eqn:Q; [|reflexivity]. cbn [andb]. assert (memb 47 B = true) by (apply memb_spec, BA; now apply KB). now rewrite H. }
      rewrite Q in SP. injection SP as _ ->. now apply BB.
    - match type of SP with Ok (_, _) = Ok (_, ?z) => assert (SQ : q = z) by congruence end. clear SP. rename SQ into SP. destruct (is_barred c) in SP.
      + destruct (starts_with (s2l "1/") B) eqn:S1 in SP; [|now apply BB]. apply starts_bar in S1 as (r & ->). change (skipn 1 (s2l "1/" ++ r)) with (47 :: r) in SP. subst q.
        exists 47. split; [now left|]. split; [apply in_or_app; right; now left|].
        split; intros J; apply in_app_or in J as [J|[J|J]]; try (apply SG in J; lia); try discriminate J; [apply NE|apply NE']; apply in_or_app; now right.
      + destruct (negb (is_radical c) && leqb B (s2l "1")) eqn:Q in SP; [|now apply BB]. apply andb_prop in Q as [_ Q]. apply leqb_str in Q. subst B. destruct F as [->|[->| ->]]; cbn in I; lia. }
  destruct G as (ch' & F' & I' & E1 & E2). destruct (real_refuses fp KReal q ch' F' I' E1 E2 (or_introl eq_refl)) as (w2 & x2 & R & _). congruence.
Qed.
Lemma omapM_fails {A B} (f : A -> out B) l x : In x l -> (exists w y, f x = (w, Err y)) -> exists w y, omapM f l = (w, Err y).
Proof.
  intros I (w & y & E). induction l as [|z l IH]; [destruct I|]. rewrite omapM_cons. destruct (f z) as [w1 [r|y1]] eqn:Q; [|cbn [obind]; now exists w1, y1].
  destruct I as [->|I]; [congruence|]. destruct (IH I) as (w2 & y2 & E2). cbn [obind]. rewrite E2. cbn [obind]. now eexists _, _.
Qed.
(** A complex number of given bytes with the texts of its parts. *)
Definition shown_parts (x : entry) (cr : cls) (a : str) (ci : cls) (b : str) : Prop :=
  exists dr di tr xr ti xi, calc_data x = dr ++ di /\ length dr = 9%nat /\ wf_bytes dr /\ length di = 9%nat /\ wf_bytes di /\
    In (cr, tr, xr) part_kinds /\ In (ci, ti, xi) part_kinds /\ nth 0 dr 0 mod 64 = tr /\ nth 0 di 0 mod 64 = ti /\
    real_text cr (Buf true dr) = Ok a /\ real_text ci (Buf true di) = Ok b.
Lemma shown_text x cr a ci b : shown_parts x cr a ci b -> complex_text x = oret (complex_show a ci b).
Proof.
  intros (dr & di & tr & xr & ti & xi & CD & L1 & W1 & L2 & W2 & K1 & K2 & T1 & T2 & XA & XB).
  destruct (get_parts (with_data x (Buf true (calc_data x))) dr di cr tr xr ci ti xi) as [GR GI]; auto; [now rewrite CD|].
  rewrite complex_text_data. unfold complex_text. rewrite GR, obind_oret. cbn [r_cls r_buf]. rewrite XA. unfold olift at 1. rewrite obind_ret_l, GI, obind_oret.
  cbn [r_cls r_buf]. rewrite XB. unfold olift. now rewrite obind_ret_l.
Qed.
Theorem C135_exact : forall ns ps fp e zs x cr a ci b ch e0, names_ok ns -> list_elems ns ps e = oret zs ->
  Forall (fun z => exists t, complex_text z = oret t /\ whole t) zs -> In x zs -> shown_parts x cr a ci b -> signed_plain a -> signed_plain b ->
  foreign ch -> In ch b -> ~ In 101 b -> ~ In 69 b -> (barred ci -> In 47 b) ->
  exists s w y, clist_text ns ps e = oret s /\ clist_load_string ns ps fp s e0 = (w, Err y).
Proof.
  intros ns ps fp e zs x cr a ci b ch e0 N E TW I SP SA SB F IB NE NE' BA.
  assert (T : exists ts, omapM complex_text zs = oret ts /\ Forall whole ts /\ In (complex_show a ci b) ts).
  { pose proof (shown_text x cr a ci b SP) as TX. clear - TW I TX. induction zs as [|z zs IH]; [destruct I|]. apply Forall_cons_iff in TW as [(t & T & W) TW].
    assert (TS : exists ts, omapM complex_text zs = oret ts /\ Forall whole ts).
    { clear - TW. induction TW as [|z zs (t & T & W) TW (ts & TS & WS)]; [now exists []|]. exists (t :: ts). split; [|now constructor]. rewrite omapM_cons, T, obind_oret, TS, obind_oret. reflexivity. }
    destruct I as [->|I].
    - destruct TS as (ts & TS & WS). exists (t :: ts). split; [rewrite omapM_cons, T, obind_oret, TS, obind_oret; reflexivity|]. split; [now constructor|]. left. rewrite TX in T. unfold oret in T. congruence.
    - destruct (IH TW I) as (ts & TS' & WS & J). exists (t :: ts). split; [rewrite omapM_cons, T, obind_oret, TS', obind_oret; reflexivity|]. split; [now constructor|now right]. }
  destruct T as (ts & T & W & J). destruct (elem_new_blank ns ps N) as (nm & EB).
  assert (FX : forall sp, sp = [] \/ sp = [32] -> exists w y, ctext_elem ns ps fp (sp ++ complex_show a ci b) = (w, Err y)).
  { destruct (signed_sg a SA) as (na & A & PA & ->). destruct (signed_sg b SB) as (nb & B & PB & ->). destruct SP as (dr & di & tr & xr & ti & xi & _ & _ & _ & _ & _ & _ & K2 & _).
    assert (SG : forall u, u <> 45 -> In u (sg nb ++ B) -> In u B) by (intros u U V; apply in_app_or in V as [V|V]; [destruct nb; cbn in V; lia|exact V]).
    destruct (refused_text fp nm na A nb B ci ti xi ch PA PB K2 F) as (w & y & R); auto.
    - apply SG; [destruct F as [->|[->| ->]]; lia|exact IB].
    - intros V. apply NE. apply in_or_app. now right.
    - intros V. apply NE'. apply in_or_app. now right.
    - intros Q. apply SG; [lia|]. now apply BA.
    - exists w, y. destruct H as [->| ->]; cbn [app]; [|rewrite ctext_elem_space]; unfold ctext_elem; rewrite EB, obind_oret, R; reflexivity. }
  destruct ts as [|t ts]; [destruct J|]. exists (list_show (t :: ts)).
  assert (O : exists w y, omapM (ctext_elem ns ps fp) (list_pieces (list_show (t :: ts))) = (w, Err y)).
  { rewrite (C134_pieces t ts W). destruct J as [->|J].
    - apply (omapM_fails _ _ (complex_show a ci b)); [now left|]. apply (FX []). now left.
    - apply (omapM_fails _ _ (32 :: complex_show a ci b)); [right; now apply in_map|]. apply (FX [32]). now right. }
  destruct O as (w & y & O). exists w, y. split; [unfold clist_text; rewrite E, obind_oret, T, obind_oret; reflexivity|]. unfold clist_load_string. rewrite O. reflexivity.
Qed.
Print Assumptions C135_exact.
(** In particular a fraction that is not whole. *)
Theorem C135_fraction : forall ns ps fp e zs x cr a n k e0, names_ok ns -> list_elems ns ps e = oret zs ->
  Forall (fun z => exists t, complex_text z = oret t /\ whole t) zs -> In x zs -> shown_parts x cr a KRealFraction (fraction_show (n, k)) -> signed_plain a -> 2 <= k ->
  exists s w y, clist_text ns ps e = oret s /\ clist_load_string ns ps fp s e0 = (w, Err y).
Proof.
  intros ns ps fp e zs x cr a n k e0 N E TW I SP SA K.
  assert (SH : fraction_show (n, k) = str_of_int n ++ s2l "/" ++ str_of_int k) by (unfold fraction_show; cbn [fst snd]; replace (k =? 1) with false by lia; reflexivity).
  assert (IN : In 47 (fraction_show (n, k))) by (rewrite SH; apply in_or_app; right; now left).
  assert (CH : forall c, In c (fraction_show (n, k)) -> c = 45 \/ 47 <= c <= 57).
  { intros c J. rewrite SH, str_of_int_text in J. apply in_app_or in J as [J|J].
    - apply in_app_or in J as [J|J]; [unfold minus_of in J; destruct (n <? 0); cbn in J; lia|]. apply number_chars in J; lia.
    - apply in_app_or in J as [J|J]; [cbn in J; lia|]. rewrite plain_number in J by lia. apply number_chars in J; lia. }
  apply (C135_exact ns ps fp e zs x cr a KRealFraction (fraction_show (n, k)) 47 e0); auto; [apply show_plain; lia|now left| |]; intros J; apply CH in J; lia.
Qed.
Print Assumptions C135_fraction.

(** Concrete lists. *)
Definition clist (ds : list bytes) : entry := with_data (list0 KComplexList 13) (Buf true ([zlen ds; 0] ++ concat ds)).
Definition relist (e : entry) : out bytes := do s := clist_text ns0 ps0 e in do e' := clist_load_string ns0 ps0 fraction1 s (list0 KComplexList 13) in oret (data e').
Definition c3_minus_quarter : bytes := [12; 128; 48; 0; 0; 0; 0; 0; 0; 140; 127; 37; 0; 0; 0; 0; 0; 0].
Definition c_half_two : bytes := [27; 127; 80; 0; 0; 0; 0; 0; 0; 12; 128; 32; 0; 0; 0; 0; 0; 0].
Definition c3_minus_i : bytes := [12; 128; 48; 0; 0; 0; 0; 0; 0; 140; 128; 16; 0; 0; 0; 0; 0; 0].
Definition c3_half_i : bytes := [12; 128; 48; 0; 0; 0; 0; 0; 0; 27; 127; 80; 0; 0; 0; 0; 0; 0].
Example C134_example : clist_text ns0 ps0 (clist [c3_minus_quarter; c_half_two]) = oret (s2l "[3 - 0.25i, 1/2 + 2i]") /\
  relist (clist [c3_minus_quarter; c_half_two]) = oret (c3_minus_quarter ++ c_half_two) /\
  Forall2 (fun x v => two_decimals v (calc_data x)) [num KComplex 12 c3_minus_quarter] [((false, 128, 30000000000000), (true, 127, 25000000000000))] /\
  survives ((false, 128, 30000000000000), (true, 127, 25000000000000)) /\ whole (s2l "3 - 0.25i") /\ flash_entry (list0 KComplexList 13).
Proof.
  split; [vm_compute; reflexivity|]. split; [vm_compute; reflexivity|].
  assert (H : forall x m d n, is_byte x -> 10 ^ 13 <= m < 10 ^ 14 -> d = b_data (stored 12 n x m) -> stored_real 12 n x m d).
  { intros x m d n X M ->. split; [lia|]. split; [change 12 with (12 mod 128) at 1; apply stored_payload; lia|]. split; [exact X|now left]. }
  split.
  { constructor; [|constructor]. exists [12; 128; 48; 0; 0; 0; 0; 0; 0], [140; 127; 37; 0; 0; 0; 0; 0; 0]. split; [reflexivity|].
    split; apply H; try lia; try (unfold is_byte; lia); reflexivity. }
  split; [repeat split; try (unfold short; lia); intros (_ & _ & ? & _); lia|].
  split; [intros c I J; cbn in I, J; lia|]. split; [reflexivity|]. exists 0, 0. split; reflexivity.
Qed.
(** [3 - i] comes back as another list. *)
Theorem C134_minus_one_refuted : exists ds, clist_text ns0 ps0 (clist ds) = oret (s2l "[3 - i]") /\ relist (clist ds) = oret [12; 128; 48; 0; 0; 0; 0; 0; 0; 140; 128; 0; 0; 0; 0; 0; 0; 0] /\
  concat ds = [12; 128; 48; 0; 0; 0; 0; 0; 0; 140; 128; 16; 0; 0; 0; 0; 0; 0].
Proof. exists [c3_minus_i]. split; [vm_compute; reflexivity|]. split; vm_compute; reflexivity. Qed.
Print Assumptions C134_minus_one_refuted.
(** A complex fraction reloads alone, from a cleared number of its own kind, but
    not in a list. *)
Theorem C135_list_refuted : exists d s, length d = 18%nat /\ clist_text ns0 ps0 (clist [d]) = oret (s2l "[" ++ s ++ s2l "]") /\
  snd (relist (clist [d])) = Err ValueError /\ complex_text (num KComplexFraction 27 d) = oret s /\
  (do e := complex_load fraction1 s (num KComplexFraction 27 d) in oret (calc_data e)) = oret d.
Proof.
  exists [12; 128; 48; 0; 0; 0; 0; 0; 0; 27; 127; 96; 0; 0; 0; 0; 0; 0], (s2l "3 + 3i/5"). split; [reflexivity|]. split; [vm_compute; reflexivity|]. split; [vm_compute; reflexivity|].
  split; vm_compute; reflexivity.
Qed.
Print Assumptions C135_list_refuted.
Example C135_example : shown_parts (num KComplexFraction 27 [12; 128; 48; 0; 0; 0; 0; 0; 0; 27; 127; 96; 0; 0; 0; 0; 0; 0]) KReal (s2l "3") KRealFraction (fraction_show (3, 5)) /\
  signed_plain (s2l "3") /\ foreign 47.
Proof.
  split; [|split; [|now left]].
  - exists [12; 128; 48; 0; 0; 0; 0; 0; 0], [27; 127; 96; 0; 0; 0; 0; 0; 0], 12, KComplex, 27, KComplexFraction.
    do 5 (split; [reflexivity || (apply wf_bytesb_spec; reflexivity)|]). split; [now left|]. split; [right; now left|]. do 2 (split; [reflexivity|]). split; vm_compute; reflexivity.
  - exists (s2l "3"). split; [|now left]. split; [discriminate|]. intros c [<-|[]]. split; intros J; vm_compute in J; lia.
Qed.
