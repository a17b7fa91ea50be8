(** C165: what ungrouping gives on arbitrary bytes. *)
From Verif Require Import L_Base M_Data M_Flags M_Models M_Class M_Var M_List M_Group S_Data L_Data S_Var L_Models L_Var L_List S_Group L_Group L_Radical L_Complex P_Var P_Group.

(** * The format of groups, as [ungroup] reads it *)

(** The raw contents of an entry: meta length, type, name, version, archive flag, data. *)
Definition contents : Type := (bytes * bytes * bytes * bytes * bytes * bytes)%type.
Definition contents_of (e : entry) : contents :=
  (e_meta e, e_type e, e_name e, e_version e, e_archived e, b_data (e_data e)).
Definition one_of (t : Z) (l : list Z) : bool := existsb (Z.eqb t) l.
(** How many of the bytes after a name belong to a member of type [t]: two dimensions and
    their product for a matrix, nine for a real number, a length word and as many bytes as it
    says for the sized types, and all there are for unknown types. *)
Definition section_size (t : Z) (l : bytes) : nat :=
  if t =? 2 then Z.to_nat (2 + nth 0 l 0 * nth 1 l 0)
  else if one_of t [0; 14; 24; 28; 32; 33] then 9
  else if one_of t [3; 11; 4; 5; 6; 8; 21; 23; 7; 26; 15; 16; 17] then Z.to_nat (2 + nth 0 l 0 + 256 * nth 1 l 0)
  else length l.
(** The first member and the rest.  The type is the low six bits of the first byte, the
    version the third byte; then come four bytes with page and name length (programs, appvars,
    groups, lists) or three with the page and a name of three; of these the first two may be
    missing.  Without flash bytes of its own a group cannot make entries. *)
Definition next_member (flash : bool) (l : bytes) : result (contents * bytes) :=
  match l with
  | b :: _ :: v :: l =>
      let t := b mod 64 in
      let k := if one_of t [5; 6; 21; 23; 1; 13] then 4%nat else 3%nat in
      let y := firstn k l in
      if Nat.ltb (length y) (k - 2) then Err ValueError
      else if negb flash then Err AttributeError
      else if one_of t [1; 13] then Err IndexError
      else if one_of t [12; 27; 29; 30; 31] then Err ValueError
      else if t =? 35 then Err AttributeError
      else
        let page := nth (length y - (k - 2)) y 0 in
        let n := if Nat.eqb k 4 then Z.to_nat (last y 0) else 3%nat in
        let name := firstn n (skipn k l) in
        let rest := skipn n (skipn k l) in
        let size := section_size t rest in
        Ok (([13; 0], [t], name ++ zeros (8 - length name), [v], [if 0 <? page then 128 else 0], firstn size rest), skipn size rest)
  | _ => Err ValueError
  end.
(** All members. *)
Fixpoint members (fuel : nat) (flash : bool) (l : bytes) : result (list contents) :=
  match l, fuel with
  | [], _ => Ok []
  | _, O => Err StopIteration
  | _, S fuel =>
      match next_member flash l with
      | Ok (c, l) => match members fuel flash l with Ok r => Ok (c :: r) | Err x => Err x end
      | Err x => Err x
      end
  end.

(** * Lemmas *)
Lemma one_of_in t l : one_of t l = true <-> In t l.
Proof. unfold one_of. rewrite existsb_exists. split; [intros (x & I & E); apply Z.eqb_eq in E; now subst|intros I; exists t; split; [exact I|apply Z.eqb_refl]]. Qed.
Lemma one_of_not t l : one_of t l = false <-> ~ In t l.
Proof. rewrite <- one_of_in. destruct (one_of t l); split; congruence. Qed.
Lemma below_64 t : 0 <= t < 64 -> In t (map Z.of_nat (seq 0 64)).
Proof. intros H. apply in_map_iff. exists (Z.to_nat t). split; [lia|apply in_seq; lia]. Qed.

(** The class of a blank entry of each type, as far as reading its data goes. *)
Definition reads_as (t : Z) (c : cls) : Prop :=
  c <> KGraphedEquation /\
  if t =? 2 then c = KMatrix
  else c <> KMatrix /\
    if one_of t [0; 14; 24; 28; 32; 33] then issubclass c KSized = false /\ calc_length c = Some 9
    else if one_of t [3; 11; 4; 5; 6; 8; 21; 23; 7; 26; 15; 16; 17] then issubclass c KSized = true
    else issubclass c KSized = false /\ calc_length c = None.
Lemma blank_class ps m t v a n : 0 <= t < 64 -> one_of t [1; 13] = false -> one_of t [12; 27; 29; 30; 31] = false -> t <> 35 ->
  exists w c, coerce ps (Entry KEntry m [t] n [v] [a] (Buf true [])) = (w, Ok (Entry c m [t] n [v] [a] (Buf true []))) /\ reads_as t c.
Proof.
  intros H H1 H2 H3. destruct (in_dec Z.eq_dec t [5; 6]) as [G|G].
  - exists [], (if is_asm ps [] then (if t =? 5 then KAsmProgram else KProtectedAsmProgram) else (if t =? 5 then KProgram else KProtectedProgram)).
    destruct G as [<- | [<- | []]]; (split; [|destruct (is_asm ps []); vm_compute; repeat split; discriminate]); unfold coerce, coerce_base, coerce_own; cbn [e_cls];
        [change (type_id _) with (@Ok Z 5)|change (type_id _) with (@Ok Z 6)]; rewrite obind_lift;
        [change (get_type 5) with (Some KProgram)|change (get_type 6) with (Some KProtectedProgram)]; cbn [with_cls e_cls];
        [change (issubclass KProgram KProgram) with true|change (issubclass KProtectedProgram KProgram) with true]; cbv iota; unfold coerce_program;
        change (data _) with (@nil Z); cbn [e_cls is_tokenized negb];
        [change (type_id _) with (@Ok Z 5)|change (type_id _) with (@Ok Z 6)]; rewrite obind_lift; destruct (is_asm ps []); reflexivity.
  - apply below_64 in H. cbn [seq map Z.of_nat Pos.of_succ_nat Pos.succ] in H.
    repeat (destruct H as [<-|H]; [first [discriminate H1 | discriminate H2 | exfalso; now apply H3 | exfalso; apply G; cbn; tauto |
      eexists; eexists; split; [vm_compute; reflexivity|vm_compute; repeat split; discriminate]]|]).
    destruct H.
Qed.
Lemma section_split t c l : reads_as t c -> wf_bytes l ->
  load_data_section c l = (firstn (section_size t l) l, skipn (section_size t l) l).
Proof.
  intros (NG & R) W. unfold section_size. destruct (t =? 2).
  - subst c. unfold load_data_section, rd. destruct l as [|a [|b l]].
    + cbn [firstn skipn]. now rewrite !firstn_nil, !skipn_nil.
    + cbn [nth firstn skipn le_int]. rewrite !Z.mul_0_r. reflexivity.
    + inversion W as [|? ? Wa W']. inversion W' as [|? ? Wb _]. unfold is_byte in *. cbn [nth].
      replace (Z.to_nat (2 + a * b)) with (S (S (Z.to_nat (a * b)))) by (assert (0 <= a * b) by (apply Z.mul_nonneg_nonneg; lia); lia).
      cbn [firstn skipn app]. replace (le_int [a]) with a by (cbn; lia). replace (le_int [b]) with b by (cbn; lia). reflexivity.
  - destruct R as (NM & R).
    assert (E : load_data_section c l = if issubclass c KSized then let '(n, l) := rd 2 l in let '(x, l) := rd (Z.to_nat (le_int n)) l in (n ++ x, l)
      else match calc_length c with Some k => rd (Z.to_nat k) l | None => (l, []) end) by (destruct c; try congruence; reflexivity).
    rewrite E. clear E. destruct (one_of t [0; 14; 24; 28; 32; 33]); [destruct R as [-> ->]; reflexivity|].
    destruct (one_of t [3; 11; 4; 5; 6; 8; 21; 23; 7; 26; 15; 16; 17]).
    + rewrite R. unfold rd. destruct l as [|a [|b l]].
      * cbn [firstn skipn]. now rewrite !firstn_nil, !skipn_nil.
      * inversion W as [|? ? Wa _]. unfold is_byte in Wa. cbn [nth firstn skipn]. rewrite firstn_nil, skipn_nil, app_nil_r.
        replace (Z.to_nat (2 + a + 256 * 0)) with (S (S (Z.to_nat a))) by lia. reflexivity.
      * inversion W as [|? ? Wa W']. inversion W' as [|? ? Wb _]. unfold is_byte in *. cbn [nth].
        replace (Z.to_nat (2 + a + 256 * b)) with (S (S (Z.to_nat (le_int [a; b])))) by (cbn; lia). reflexivity.
    + destruct R as [-> ->]. now rewrite firstn_all, skipn_all.
Qed.

Section Ungroup.
Variable ns : cls -> str -> out bytes.
Variable gv : entry -> option bytes -> out Z.
Variable ps : bytes -> option bool.
Hypothesis NS : okay (ns KEntry (s2l "UNNAMED")).

Lemma rev_last (y : bytes) n : (n <= length y)%nat -> (n <= 2)%nat -> 
  match n with
  | 2%nat => exists q, rev y = last y 0 :: nth (length y - 2) y 0 :: q
  | 1%nat => exists q, rev y = nth (length y - 1) y 0 :: q
  | _ => True
  end.
Proof.
  intros L N. destruct n as [|[|[|n]]]; [exact I| | |lia].
  - destruct (rev y) as [|a q] eqn:E; [apply (f_equal (@length Z)) in E; rewrite rev_length in E; cbn in E; lia|].
    apply (f_equal (@rev Z)) in E. rewrite rev_involutive in E. cbn [rev] in E. exists q. subst y. rewrite app_length. cbn [length].
    rewrite app_nth2 by lia. now replace (length (rev q) + 1 - 1 - length (rev q))%nat with 0%nat by lia.
  - destruct (rev y) as [|a [|b q]] eqn:E; [apply (f_equal (@length Z)) in E; rewrite rev_length in E; cbn in E; lia..|].
    apply (f_equal (@rev Z)) in E. rewrite rev_involutive in E. cbn [rev] in E. exists q. subst y. rewrite last_last. do 2 f_equal. rewrite !app_length. cbn [length].
    rewrite app_nth1 by (rewrite app_length; cbn; lia). rewrite app_nth2 by lia. now replace (length (rev q) + 1 + 1 - 2 - length (rev q))%nat with 0%nat by lia.
Qed.

Definition strip {A B C} (f : A -> C) (x : out (A * B)) : result (C * B) :=
  match snd x with Ok (a, b) => Ok (f a, b) | Err e => Err e end.
Lemma strip_bind {A B C D} (f : A -> C) w x (k : D -> out (A * B)) : strip f (obind (w, Ok x) k) = strip f (k x).
Proof. unfold obind, strip. now destruct (k x). Qed.
Lemma strip_warn {A B C D} (f : A -> C) b w (x : D) (k : D -> out (A * B)) : strip f (obind (obind (owarn_if b w) (fun _ => oret x)) k) = strip f (k x).
Proof. unfold obind, strip, owarn_if, owarn, oret. destruct b, (k x) as [? [[? ?]|?]]; reflexivity. Qed.
Lemma ungroup_next flash tb l : wf_bytes (tb :: l) ->
  strip contents_of (ungroup_one ns gv ps flash tb l) = next_member flash (tb :: l).
Proof.
  intros W. inversion W as [|? ? Wt Wl]. unfold ungroup_one, rd. destruct l as [|z [|v l]]; [reflexivity..|]. cbn [firstn skipn next_member].
  inversion Wl as [|? ? _ Wl']. inversion Wl' as [|? ? Wv Wl'']. clear W Wl Wl'. subst. unfold is_byte in Wt, Wv.
  replace (Z.land tb 63) with (tb mod 64) by (change 63 with (Z.ones 6); rewrite Z.land_ones by lia; reflexivity).
  set (t := tb mod 64). assert (BT : 0 <= t < 64) by (unfold t; lia). clearbody t.
  set (rest := fun p : Z * bytes * bytes => let '(page, name, l) := p in
     do e := entry_new ns gv ps KEntry flash (s2l "UNNAMED") (Some v) (Some (0 <? page)) [] in
     do e := set_type_id e t in do e := coerce ps e in
     (let e := with_name e (ljust 8 name) in
     let '(d, l) := load_data_section (e_cls e) l in let e := with_data e (Buf true d) in
     if cls_eqb (e_cls e) KGraphedEquation then oerr AttributeError else oret (e, l))).
  change (strip contents_of (obind (read_vat t l) rest) = 
     (let k := if one_of t [5; 6; 21; 23; 1; 13] then 4%nat else 3%nat in
      let y := firstn k l in
      if Nat.ltb (length y) (k - 2) then Err ValueError
      else if negb flash then Err AttributeError
      else if one_of t [1; 13] then Err IndexError
      else if one_of t [12; 27; 29; 30; 31] then Err ValueError
      else if t =? 35 then Err AttributeError
      else
        let page := nth (length y - (k - 2)) y 0 in
        let n := if Nat.eqb k 4 then Z.to_nat (last y 0) else 3%nat in
        let name := firstn n (skipn k l) in
        let rest := skipn n (skipn k l) in
        let size := section_size t rest in
        Ok (([13; 0], [t], name ++ zeros (8 - length name), [v], [if 0 <? page then 128 else 0], firstn size rest), skipn size rest))).
  assert (REST : forall page name r, wf_bytes r -> strip contents_of (rest (page, name, r)) =
      if negb flash then Err AttributeError
      else if one_of t [1; 13] then Err IndexError
      else if one_of t [12; 27; 29; 30; 31] then Err ValueError
      else if t =? 35 then Err AttributeError
      else Ok (([13; 0], [t], name ++ zeros (8 - length name), [v], [if 0 <? page then 128 else 0], firstn (section_size t r) r), skipn (section_size t r) r)).
  { intros page name r Wr. unfold rest. destruct flash; cbn [negb]; [|reflexivity]. destruct (blank_new ns gv ps NS v (0 <? page) Wv) as (w2 & n & BN). rewrite BN, strip_bind.
    rewrite (set_type_ok _ 255 t) by (auto; unfold is_byte; lia). rewrite obind_oret. unfold with_type. cbn [e_cls e_meta e_name e_version e_archived e_data].
    destruct (one_of t [1; 13]) eqn:E1.
    { apply one_of_in in E1. destruct E1 as [<-|[<-|[]]]; reflexivity. }
    destruct (one_of t [12; 27; 29; 30; 31]) eqn:E2.
    { apply one_of_in in E2. cbn [In] in E2. repeat (destruct E2 as [<-|E2]; [reflexivity|]). destruct E2. }
    destruct (t =? 35) eqn:E3.
    { apply Z.eqb_eq in E3. rewrite E3. set (x := coerce ps _). vm_compute in x. unfold x. rewrite strip_bind. cbn [with_name e_cls load_data_section]. destruct (eq_section r) as [d l']. reflexivity. }
    apply Z.eqb_neq in E3. destruct (blank_class ps [13; 0] t v (if 0 <? page then 128 else 0) n BT E1 E2 E3) as (w3 & c & CO & RA).
    rewrite CO, strip_bind. unfold with_name, with_data. cbn [e_cls e_meta e_type e_name e_version e_archived e_data]. rewrite (section_split t c r RA Wr).
    destruct (cls_eqb c KGraphedEquation) eqn:CE; [exfalso; apply (proj1 RA); destruct c; cbn in CE; congruence|]. reflexivity. }
  destruct (one_of t [5; 6; 21; 23]) eqn:N1.
  - assert (E : one_of t [5; 6; 21; 23; 1; 13] = true) by (apply one_of_in; apply one_of_in in N1; cbn [In] in *; tauto). rewrite E. cbv zeta.
    unfold read_vat. replace (is_named t) with true by (symmetry; unfold is_named; apply one_of_in in N1; cbn [In] in N1; lia).
    unfold rd. cbn [Nat.sub Nat.eqb]. set (y := firstn 4 l). destruct (Nat.ltb (length y) 2) eqn:LY.
    + apply Nat.ltb_lt in LY. destruct y as [|a [|b y]]; [reflexivity..|cbn in LY; lia].
    + apply Nat.ltb_ge in LY. destruct (rev_last y 2 LY ltac:(lia)) as [q ->].
      assert (WR : wf_bytes (skipn (Z.to_nat (last y 0)) (skipn 4 l))) by now do 2 apply wf_skipn.
      transitivity (strip contents_of (rest (nth (length y - 2) y 0, firstn (Z.to_nat (last y 0)) (skipn 4 l), skipn (Z.to_nat (last y 0)) (skipn 4 l)))); [|now apply REST].
      apply strip_warn.
  - unfold read_vat. replace (is_named t) with false by (symmetry; unfold is_named; apply one_of_not in N1; cbn [In] in N1; lia).
    destruct (one_of t [1; 13]) eqn:N2.
    + assert (E : one_of t [5; 6; 21; 23; 1; 13] = true) by (apply one_of_in; apply one_of_in in N2; cbn [In] in *; tauto). rewrite E. cbv zeta.
      replace (is_list t) with true by (symmetry; unfold is_list; apply one_of_in in N2; cbn [In] in N2; lia).
      unfold rd. cbn [Nat.sub Nat.eqb]. set (y := firstn 4 l). destruct (Nat.ltb (length y) 2) eqn:LY.
      * apply Nat.ltb_lt in LY. destruct y as [|a [|b y]]; [reflexivity..|cbn in LY; lia].
      * apply Nat.ltb_ge in LY. destruct (rev_last y 2 LY ltac:(lia)) as [q ->].
        transitivity (strip contents_of (rest (nth (length y - 2) y 0, [], []))); [|rewrite REST by constructor; now destruct flash].
        assert (SAME : forall p x r, wf_bytes r -> strip contents_of (rest (p, x, r)) = strip contents_of (rest (p, [], []))) by (intros p x r Wr; rewrite !REST by (auto; constructor); now destruct flash).
        destruct (last y 0 =? 0); (etransitivity; [apply strip_warn|]); apply SAME; repeat apply wf_skipn; first [exact Wl'' | constructor].
    + assert (E : one_of t [5; 6; 21; 23; 1; 13] = false) by (apply one_of_not; apply one_of_not in N1; apply one_of_not in N2; cbn [In] in *; tauto). rewrite E. cbv zeta.
      replace (is_list t) with false by (symmetry; unfold is_list; apply one_of_not in N2; cbn [In] in N2; lia).
      unfold rd. cbn [Nat.sub Nat.eqb]. set (y := firstn 3 l). destruct (Nat.ltb (length y) 1) eqn:LY.
      * apply Nat.ltb_lt in LY. destruct y as [|a y]; [reflexivity|cbn in LY; lia].
      * apply Nat.ltb_ge in LY. destruct (rev_last y 1 LY ltac:(lia)) as [q ->].
        assert (WR : wf_bytes (skipn 3 (skipn 3 l))) by now do 2 apply wf_skipn.
        unfold oret. rewrite strip_bind, REST by exact WR. reflexivity.
Qed.

Definition listed (x : out (list entry)) : result (list contents) := match snd x with Ok es => Ok (map contents_of es) | Err e => Err e end.
Lemma next_shorter flash l c r : next_member flash l = Ok (c, r) -> wf_bytes l -> wf_bytes r /\ (length r < length l)%nat.
Proof.
  intros H W. destruct l as [|b [|z [|v l]]]; try discriminate H. unfold next_member in H. cbv zeta in H.
  set (k := if one_of (b mod 64) [5; 6; 21; 23; 1; 13] then 4%nat else 3%nat) in H.
  destruct (Nat.ltb _ _); [discriminate H|]. destruct (negb flash); [discriminate H|]. destruct (one_of _ [1; 13]); [discriminate H|].
  destruct (one_of _ [12; 27; 29; 30; 31]); [discriminate H|]. destruct (_ =? 35); [discriminate H|]. injection H as _ <-.
  split; [repeat apply wf_skipn; do 3 (apply Forall_inv_tail in W); exact W|]. rewrite !skipn_length. cbn [length]. lia.
Qed.
Lemma loop_members_all flash fuel l : wf_bytes l -> listed (ungroup_loop ns gv ps fuel flash l) = members fuel flash l.
Proof.
  revert l. induction fuel as [|fuel IH]; intros [|b l] W; try reflexivity.
  pose proof (ungroup_next flash b l W) as E. cbn [ungroup_loop members]. rewrite <- E.
  destruct (ungroup_one ns gv ps flash b l) as [w [[e r]|x]] eqn:U; [|reflexivity]. unfold strip in E |- *. cbn [snd] in E |- *.
  symmetry in E. destruct (next_shorter _ _ _ _ E W) as [Wr _]. rewrite <- (IH r Wr). unfold listed. cbn [obind]. cbv iota beta.
  destruct (ungroup_loop ns gv ps fuel flash r) as [w' [es|x]]; reflexivity.
Qed.

(** Ungrouping any bytes gives exactly the members the format describes, or the error of the
    first member that cannot be read. *)
Theorem C165_ungroup : forall g arg, let d := match arg with Some (b :: l) => b :: l | _ => data g end in wf_bytes d ->
  listed (ungroup ns gv ps g arg) = members (length d) (negb (leqb (flash_bytes g) [])) d.
Proof.
  intros g arg d W. unfold ungroup.
  replace (match flash_bytes g with [] => false | _ => true end) with (negb (leqb (flash_bytes g) [])) by now destruct (flash_bytes g).
  destruct arg as [[|b l]|]; subst d; now apply loop_members_all.
Qed.
(** The loop always ends. *)
Lemma members_end flash : forall fuel l x, wf_bytes l -> (length l <= fuel)%nat -> members fuel flash l = Err x -> In x [IndexError; ValueError; AttributeError].
Proof.
  induction fuel as [|fuel IH]; intros [|b l] x W L H; cbn [length] in L; try discriminate H; [lia|].
  cbn [members] in H. destruct (next_member flash (b :: l)) as [[c r]|y] eqn:N.
  - destruct (next_shorter _ _ _ _ N W) as [Wr Lr]. cbn [length] in Lr. destruct (members fuel flash r) as [|z] eqn:M; [discriminate H|]. injection H as <-. apply (IH r z Wr); [lia|exact M].
  - injection H as <-. destruct l as [|z [|v l]]; [injection N as <-; cbn; tauto..|]. unfold next_member in N. cbv zeta in N.
    repeat match type of N with (if ?b then _ else _) = _ => destruct b; [injection N as <-; cbn; tauto|] end. discriminate N.
Qed.
Theorem C165_errors : forall g arg w x, wf_bytes match arg with Some (b :: l) => b :: l | _ => data g end ->
  ungroup ns gv ps g arg = (w, Err x) -> In x [IndexError; ValueError; AttributeError].
Proof.
  intros g arg w x W H. pose proof (C165_ungroup g arg W) as E. cbv zeta in E. rewrite H in E. unfold listed in E. cbn [snd] in E. symmetry in E.
  apply members_end in E; auto.
Qed.
(** Bytes can be assigned to the data of a group exactly if they can be ungrouped; otherwise
    the assignment raises the same error. *)
Theorem C165_assign : forall g D v, is_group g D -> wf_bytes v -> v <> [] -> zlen v < 65536 -> (forall e, exists w n, gv e None = (w, Ok n) /\ is_byte n) ->
  match members (length v) true v with
  | Ok _ => exists w g', set_data (group_version ns gv ps) g v = (w, Ok g') /\ is_group g' v
  | Err x => exists w, set_data (group_version ns gv ps) g v = (w, Err x)
  end.
Proof.
  intros g D v G W NE L GV. rewrite <- (loop_members_all true (length v) v W). unfold listed.
  destruct (ungroup_loop ns gv ps (length v) true v) as [w [es|x]] eqn:U; cbn [snd].
  - assert (M : exists w' vs, omapM (fun e => gv e None) es = (w', Ok vs) /\ Forall is_byte vs).
    { clear U. induction es as [|e es (w' & vs & E & B)]; [exists [], []; split; [reflexivity|constructor]|].
      destruct (GV e) as (w1 & n & E1 & B1). cbn [omapM]. rewrite E1. cbn [obind]. rewrite E. cbn [obind oret]. do 2 eexists. split; [reflexivity|now constructor]. }
    destruct M as (w' & vs & M & B). destruct (group_version_ok ns gv ps v w es w' vs NE U M B) as (ver & BV & V).
    exact (set_group_data ns gv ps g D v ver G L BV NE V).
  - apply (set_group_fail ns gv ps g D v x G L NE). eauto.
Qed.
End Ungroup.
Print Assumptions C165_assign.
Print Assumptions C165_ungroup.
Print Assumptions C165_errors.

(** A member with a type byte of 128 + 5, no name and less data than it says, then a matrix
    of two by three that gets six bytes, then an unknown type that gets all the rest. *)
Definition odd_group : bytes := [133; 9; 4; 7; 8; 1; 0; 1; 0; 187] ++ [2; 0; 0; 0; 0; 0; 92; 0; 0; 2; 3; 1; 2; 3; 4; 5; 6] ++ [20; 0; 0; 0; 0; 0; 65; 66; 67; 1; 13; 12].
Example C165_example : okay (ns0 KEntry (s2l "UNNAMED")) /\ wf_bytes odd_group /\
  listed (ungroup ns0 gv0 ps0 gA (Some odd_group)) = Ok
    [([13; 0], [5], zeros 8, [4], [128], [1; 0; 187]); ([13; 0], [2], 92 :: zeros 7, [0], [0], [2; 3; 1; 2; 3; 4; 5; 6]);
     ([13; 0], [20], s2l "ABC" ++ zeros 5, [0], [0], [1; 13; 12])] /\
  members 40 true odd_group = listed (ungroup ns0 gv0 ps0 gA (Some odd_group)).
Proof.
  split; [do 2 eexists; reflexivity|]. split; [apply Forall_forall; intros z I; vm_compute in I; unfold is_byte; repeat (destruct I as [<-|I]; [lia|]); destruct I|].
  split; vm_compute; reflexivity.
Qed.
(** It is false that ungrouping never raises: each of the three errors occurs. *)
Theorem C165_never_refuted : exists b1 b2 b3, wf_bytes b1 /\ wf_bytes b2 /\ wf_bytes b3 /\
  snd (ungroup ns0 gv0 ps0 gA (Some b1)) = Err IndexError /\ snd (ungroup ns0 gv0 ps0 gA (Some b2)) = Err ValueError /\
  snd (ungroup ns0 gv0 ps0 gA (Some b3)) = Err AttributeError.
Proof.
  exists [1; 0; 0; 0; 0; 0; 3; 93; 0; 0; 0; 0], [12; 0; 0; 0; 0; 0; 65], [35; 0; 0; 0; 0; 0; 94].
  do 3 (split; [apply Forall_forall; intros z I; vm_compute in I; unfold is_byte; repeat (destruct I as [<-|I]; [lia|]); destruct I|]).
  split; [|split]; vm_compute; reflexivity.
Qed.
Print Assumptions C165_never_refuted.
Definition blank_group : entry := Entry KGroup [13; 0] [23] (ljust 8 (s2l "GROUP")) [0] [128] (Buf true [0; 0]).
Example C165_assign_example : is_group blank_group [] /\ (forall e, exists w n, gv0 e None = (w, Ok n) /\ is_byte n) /\
  snd (set_data (group_version ns0 gv0 ps0) blank_group [1; 0; 0; 0; 0; 0; 3; 93; 0; 0; 0; 0]) = Err IndexError /\
  exists w g, set_data (group_version ns0 gv0 ps0) blank_group odd_group = (w, Ok g) /\ data g = odd_group.
Proof.
  split; [exists (ljust 8 (s2l "GROUP")), 0, 128; split; [reflexivity|unfold is_byte; lia]|]. split; [intros e; exists [], 0; split; [reflexivity|unfold is_byte; lia]|].
  split; [vm_compute; reflexivity|]. do 2 eexists. split; vm_compute; reflexivity.
Qed.
