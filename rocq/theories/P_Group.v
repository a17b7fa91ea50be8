(** Property theorems C52, C53: groups.  [ns], [gv], [ps] stand for the name
    encoder, the version functions of the members, and the program text test. *)
From Verif Require Import L_Base M_Data M_Flags M_Models M_Class M_Var M_List M_Group S_Data L_Data S_Var L_Models L_Var L_List S_Group L_Group P_Var.

Lemma ungroup_arg ns gv ps g D : flash_bytes g <> [] -> data g = D ->
  ungroup ns gv ps g None = ungroup_loop ns gv ps (length D) true D.
Proof. intros F <-. unfold ungroup. destruct (flash_bytes g); [congruence|reflexivity]. Qed.

Lemma flash13 x v : e_meta x = [13; 0] -> e_version x = [v] -> (match flash_bytes x with [] => false | _ => true end) = true.
Proof.
  intros M V. unfold flash_bytes, meta_length. rewrite M, V. change (integer_get [13; 0] - 11) with 2.
  cbn [app]. destruct (e_archived x) as [|a r]; [reflexivity|].
  change (py_slice (v :: a :: r) None (Some 2)) with (py_slice (v :: a :: r) (Some 0) (Some 2)).
  rewrite py_slice_nn by (rewrite ?zlen_cons; pose proof (zlen_nonneg r); lia). reflexivity.
Qed.

(** C52: a group is made, holds the members one after the other, and gives them
    back. *)
Theorem C52_group_roundtrip : forall ns gv ps xs bs name,
  okay (ns KEntry (s2l "UNNAMED")) -> okay (ns KGroup name) ->
  xs <> [] -> Forall2 member xs bs -> Forall (versioned gv) xs -> zlen (concat bs) < 65536 ->
  exists w g w' es, group ns gv ps xs name = (w, Ok g) /\
    e_type g = [23] /\ calc_data g = le16 (zlen (concat bs)) ++ concat bs /\ data g = concat bs /\
    ungroup ns gv ps g None = (w', Ok es) /\ Forall2 (regained ps) es xs.
Proof.
  intros ns gv ps xs bs name NS NG NE M V L.
  assert (FB : forall x r, xs = x :: r -> (match flash_bytes x with [] => false | _ => true end) = true).
  { intros x r ->. inversion M as [|? ? ? ? H]; subst. destruct H. reflexivity. }
  destruct xs as [|x r]; [congruence|]. unfold group. rewrite (FB x r eq_refl).
  destruct (group_new_ok ns gv ps name NG) as (w1 & g0 & E0 & G0).
  destruct (group_loop_ok ns gv ps NS (x :: r) bs M V [] [] g0 (Forall2_nil _) (Forall_nil _) G0 L) as (w2 & g & E & G).
  destruct (loop_all ns gv ps NS (x :: r) bs M) as (w3 & es & U & F).
  pose proof (group_data g _ G) as D. pose proof (group_flash g _ G) as FL. cbn [app] in *.
  rewrite E0. cbn [obind]. rewrite E.
  assert (W : exists w', owarn_if (match r with [] => true | _ => false end) WGroup = (w', Ok tt)) by (unfold owarn_if; destruct r; eexists; reflexivity).
  destruct W as [w4 ->]. cbn [obind].
  do 4 eexists. split; [reflexivity|]. destruct G as (n & v & a & GE & _). split; [now rewrite GE|]. split; [now rewrite GE|].
  split; [exact D|]. split; [|exact F]. rewrite (ungroup_arg ns gv ps g _ FL D). exact U.
Qed.
Print Assumptions C52_group_roundtrip.

(** Any group entry with those bytes gives the members back. *)
Theorem C52_ungroup : forall ns gv ps xs bs g,
  okay (ns KEntry (s2l "UNNAMED")) -> Forall2 member xs bs -> flash_bytes g <> [] -> data g = concat bs ->
  exists w es, ungroup ns gv ps g None = (w, Ok es) /\ Forall2 (regained ps) es xs.
Proof.
  intros ns gv ps xs bs g NS M F D. rewrite (ungroup_arg ns gv ps g _ F D). now apply loop_all.
Qed.
Print Assumptions C52_ungroup.

(** Grouping what was ungrouped restores the bytes. *)
Lemma member_regained ps e x b : ps [] <> Some true -> regained ps e x -> member x b -> member e b.
Proof.
  intros P ((E1 & E2 & E3 & E4 & E5 & E6) & C) M. destruct M as [c t v a field name payload tail T V LF WF B HN HU PR PS NG].
  specialize (C P t eq_refl). destruct e as [c' m t' n v' a' d]. cbn in *. subst. apply (member_intro c' t v a field name payload tail); auto.
  intros ->. destruct T as [T | T]; cbn in T; repeat (destruct T as [<- | T]; [discriminate C|]); destruct T.
Qed.
Lemma versioned_regained gv e x : same_raw e x -> versioned gv x -> versioned gv e.
Proof.
  intros (E1 & E2 & E3 & E4 & E5 & E6) V y H. apply V. destruct e, x. cbn in *. subst. destruct H as [H | H]; [left | right]; destruct y; exact H.
Qed.
Theorem C52_regroup : forall ns gv ps xs bs g name,
  okay (ns KEntry (s2l "UNNAMED")) -> okay (ns KGroup name) -> ps [] <> Some true ->
  xs <> [] -> Forall2 member xs bs -> Forall (versioned gv) xs -> zlen (concat bs) < 65536 ->
  flash_bytes g <> [] -> data g = concat bs ->
  exists w es w' g', ungroup ns gv ps g None = (w, Ok es) /\ group ns gv ps es name = (w', Ok g') /\ data g' = data g.
Proof.
  intros ns gv ps xs bs g name NS NG P NE M V L F D.
  destruct (C52_ungroup ns gv ps xs bs g NS M F D) as (w & es & U & R).
  assert (ME : Forall2 member es bs).
  { clear - M R P. revert bs M. induction R as [|e x es xs H R IH]; intros bs M; inversion M; subst; constructor; eauto using member_regained. }
  assert (VE : Forall (versioned gv) es).
  { clear - V R. induction R as [|e x es xs H R IH]; inversion V; subst; constructor; auto. eapply versioned_regained; eauto. apply H. }
  destruct (C52_group_roundtrip ns gv ps es bs name NS NG) as (w1 & g1 & w2 & es2 & G & _ & _ & D1 & _); auto.
  - destruct R; congruence.
  - exists w, es, w1, g1. split; [exact U|]. split; [exact G|congruence].
Qed.
Print Assumptions C52_regroup.

(** The empty group. *)
Theorem C52_empty : forall ns gv ps name, okay (ns KGroup name) ->
  exists w g, group ns gv ps [] name = (WGroup :: w, Ok g) /\ data g = [] /\ ungroup ns gv ps g None = ([], Ok []).
Proof.
  intros ns gv ps name NG. destruct (group_new_ok ns gv ps name NG) as (w & g & E & G).
  exists w, g. unfold group. rewrite E. cbn [obind owarn]. split; [reflexivity|]. pose proof (group_data g _ G) as D. split; [exact D|].
  rewrite (ungroup_arg ns gv ps g [] (group_flash g _ G) D). reflexivity.
Qed.
Print Assumptions C52_empty.

(** A real number, a program and an archived string. *)
Definition gA : entry := Entry KReal [13; 0] [0] (65 :: zeros 7) [0] [0] (Buf true [0; 128; 66; 0; 0; 0; 0; 0; 0]).
Definition gP : entry := Entry KProgram [13; 0] [5] (ljust 8 (s2l "HELLO")) [4] [0] (Buf true [3; 0; 222; 42; 72]).
Definition gS : entry := Entry KString [13; 0] [4] ([170; 0] ++ zeros 6) [0] [128] (Buf true [2; 0; 65; 66]).
Lemma bare_of (name : bytes) n : (forall p, name <> p ++ [0]) -> bare (name ++ zeros n) name.
Proof. intros H. exists n. auto. Qed.
Lemma ends_not (l : bytes) : last l 1 <> 0 -> forall p, l <> p ++ [0].
Proof. intros H p ->. now rewrite last_last in H. Qed.
Ltac member_tac c t v a field name payload tail :=
  apply (member_intro c t v a field name payload tail);
  [ first [left; cbn; tauto | right; cbn; tauto] | unfold is_byte; lia | reflexivity
  | apply Forall_forall; intros z H; vm_compute in H; unfold is_byte; lia
  | exists (8 - length name)%nat; split; [reflexivity|apply ends_not; vm_compute; discriminate]
  | intros H; first [reflexivity | exfalso; cbn in H; lia]
  | intros H; first [split; [cbn; lia|reflexivity] | exfalso; apply H; cbn; tauto]
  | intros H; first [reflexivity | exfalso; cbn in H; lia]
  | intros H; first [exfalso; cbn in H; lia | idtac]
  | discriminate ].
Definition imA : bytes := [0; 0; 0; 0; 0; 0; 65; 0; 0; 0; 128; 66; 0; 0; 0; 0; 0; 0].
Definition imP : bytes := [5; 0; 4; 0; 0; 0; 5] ++ s2l "HELLO" ++ [3; 0; 222; 42; 72].
Definition imS : bytes := [4; 0; 0; 0; 0; 1; 170; 0; 0; 2; 0; 65; 66].
Lemma mA : member gA imA.
Proof. member_tac KReal 0 0 false (65 :: zeros 7) [65] [0; 128; 66; 0; 0; 0; 0; 0; 0] [65; 0; 0]. Qed.
Lemma mP : member gP imP.
Proof.
  member_tac KProgram 5 4 false (ljust 8 (s2l "HELLO")) (s2l "HELLO") [3; 0; 222; 42; 72] (5 :: s2l "HELLO").
  exists [222; 42; 72]. split; [vm_compute|]; reflexivity.
Qed.
Lemma mS : member gS imS.
Proof.
  member_tac KString 4 0 true ([170; 0] ++ zeros 6) [170] [2; 0; 65; 66] [170; 0; 0].
  exists [65; 66]. split; [vm_compute|]; reflexivity.
Qed.
Example C52_example :
  Forall2 member [gA; gP; gS] [imA; imP; imS] /\ Forall (versioned gv0) [gA; gP; gS] /\
  okay (ns0 KEntry (s2l "UNNAMED")) /\ okay (ns0 KGroup (s2l "GROUP")) /\ ps0 [] <> Some true /\
  exists w g w' es, group ns0 gv0 ps0 [gA; gP; gS] (s2l "GROUP") = (w, Ok g) /\ data g = imA ++ imP ++ imS /\
    ungroup ns0 gv0 ps0 g None = (w', Ok es) /\ es = [gA; gP; gS].
Proof.
  assert (M : Forall2 member [gA; gP; gS] [imA; imP; imS]) by (repeat constructor; auto using mA, mP, mS).
  assert (V : forall x, versioned gv0 x) by (intros x e _; exists [], 0; split; [reflexivity|unfold is_byte; lia]).
  split; [exact M|]. split; [repeat constructor; auto|]. split; [do 2 eexists; reflexivity|]. split; [do 2 eexists; reflexivity|]. split; [discriminate|].
  eexists; eexists. eexists; exists [gA; gP; gS].
  split; [vm_compute; reflexivity|]. split; [vm_compute; reflexivity|]. split; [vm_compute; reflexivity|reflexivity].
Qed.

(** C53 is false: after any groupable members, a list raises IndexError and a
    complex number ValueError, whatever it contains. *)
Theorem C53_list_refuted : forall ns gv ps xs bs x rest name t,
  okay (ns KEntry (s2l "UNNAMED")) -> okay (ns KGroup name) ->
  Forall2 member xs bs -> Forall (versioned gv) xs -> zlen (concat bs) < 65000 ->
  list_type t -> e_meta x = [13; 0] -> e_type x = [t] -> (exists v, e_version x = [v] /\ is_byte v) ->
  length (e_name x) = 8%nat -> wf_bytes (e_name x) -> e_cls x <> KGraphedEquation ->
  exists w, group ns gv ps (xs ++ x :: rest) name = (w, Err IndexError).
Proof.
  intros ns gv ps xs bs x rest name t NS NG M V L HT MX TX VX LN WN NC.
  destruct (group_new_ok ns gv ps name NG) as (w1 & g0 & E0 & G0).
  destruct (group_fail ns gv ps NS xs bs x t IndexError rest g0 M V G0 L (or_introl (conj HT eq_refl)) TX VX LN WN NC) as [w2 E].
  destruct (xs ++ x :: rest) as [|y r] eqn:EQ; [now destruct xs|]. unfold group.
  assert (FB : (match flash_bytes y with [] => false | _ => true end) = true).
  { destruct M as [|x1 b1 xs bs H M]; injection EQ as <- _.
    - destruct VX as (v & VX & _). now apply (flash13 x v).
    - destruct H. reflexivity. }
  rewrite FB, E0. assert (W : exists w', owarn_if (match r with [] => true | _ => false end) WGroup = (w', Ok tt)) by (unfold owarn_if; destruct r; eexists; reflexivity).
  destruct W as [w4 ->]. cbn [obind]. rewrite E. eauto.
Qed.
Print Assumptions C53_list_refuted.
Theorem C53_complex_refuted : forall ns gv ps xs bs x rest name t,
  okay (ns KEntry (s2l "UNNAMED")) -> okay (ns KGroup name) ->
  Forall2 member xs bs -> Forall (versioned gv) xs -> zlen (concat bs) < 65000 ->
  complex_type t -> e_meta x = [13; 0] -> e_type x = [t] -> (exists v, e_version x = [v] /\ is_byte v) ->
  length (e_name x) = 8%nat -> wf_bytes (e_name x) -> e_cls x <> KGraphedEquation ->
  exists w, group ns gv ps (xs ++ x :: rest) name = (w, Err ValueError).
Proof.
  intros ns gv ps xs bs x rest name t NS NG M V L HT MX TX VX LN WN NC.
  destruct (group_new_ok ns gv ps name NG) as (w1 & g0 & E0 & G0).
  destruct (group_fail ns gv ps NS xs bs x t ValueError rest g0 M V G0 L (or_intror (conj HT eq_refl)) TX VX LN WN NC) as [w2 E].
  destruct (xs ++ x :: rest) as [|y r] eqn:EQ; [now destruct xs|]. unfold group.
  assert (FB : (match flash_bytes y with [] => false | _ => true end) = true).
  { destruct M as [|x1 b1 xs bs H M]; injection EQ as <- _.
    - destruct VX as (v & VX & _). now apply (flash13 x v).
    - destruct H. reflexivity. }
  rewrite FB, E0. assert (W : exists w', owarn_if (match r with [] => true | _ => false end) WGroup = (w', Ok tt)) by (unfold owarn_if; destruct r; eexists; reflexivity).
  destruct W as [w4 ->]. cbn [obind]. rewrite E. eauto.
Qed.
Print Assumptions C53_complex_refuted.

(** A graphed equation raises AttributeError at once, and so does a first entry
    without flash bytes. *)
Theorem C53_graphed_refuted : forall ns gv ps x rest name v t, okay (ns KGroup name) ->
  e_cls x = KGraphedEquation -> e_meta x = [13; 0] -> e_type x = [t] -> is_byte t -> e_version x = [v] -> is_byte v ->
  exists w, group ns gv ps (x :: rest) name = (w, Err AttributeError).
Proof.
  intros ns gv ps x rest name v t NG C MX TX TB VX VB. destruct (group_new_ok ns gv ps name NG) as (w1 & g0 & E0 & G0).
  unfold group. assert (FB : (match flash_bytes x with [] => false | _ => true end) = true).
  { now apply (flash13 x v). }
  rewrite FB, E0. cbn [group_loop]. unfold vat_of. rewrite (type_id_byte x t), (version_byte x v) by auto. rewrite !obind_lift, C.
  change (cls_eqb KGraphedEquation KGraphedEquation) with true. unfold owarn_if. destruct rest, (archived x); cbn [obind oret owarn oerr]; eexists; reflexivity.
Qed.
Print Assumptions C53_graphed_refuted.
Theorem C53_flashless_refuted : forall ns gv ps x rest name, flash_bytes x = [] ->
  exists w, group ns gv ps (x :: rest) name = (w, Err AttributeError).
Proof.
  intros ns gv ps x rest name F. unfold group. rewrite F. unfold group_new, entry_new.
  change (meta_convert KGroup None 11) with (@oerr bytes AttributeError). unfold owarn_if. destruct rest; cbn [obind oret owarn oerr]; eexists; reflexivity.
Qed.
Print Assumptions C53_flashless_refuted.

(** A matrix and the table settings under their own name are mangled: grouping
    succeeds, and ungrouping gives other entries.  A second matrix after the
    first even raises IndexError: the rest of the first one is read as a list. *)
Definition gM : entry := Entry KMatrix [13; 0] [2] (92 :: zeros 7) [0] [0] (Buf true ([1; 1] ++ [0; 128; 16; 0; 0; 0; 0; 0; 0])).
Theorem C53_matrix_refuted : exists w g w' es, group ns0 gv0 ps0 [gA; gM] (s2l "GROUP") = (w, Ok g) /\
  ungroup ns0 gv0 ps0 g None = (w', Ok es) /\ length es = 3%nat /\ ~ Forall2 same_raw es [gA; gM].
Proof.
  do 4 eexists. split; [vm_compute; reflexivity|]. split; [vm_compute; reflexivity|]. split; [reflexivity|].
  intros H. inversion H as [|? ? ? ? _ H2]; subst. inversion H2 as [|? ? ? ? _ H3]; subst. inversion H3.
Qed.
Theorem C53_two_matrices_refuted : snd (group ns0 gv0 ps0 [gM; gM] (s2l "GROUP")) = Err IndexError.
Proof. vm_compute. reflexivity. Qed.
Print Assumptions C53_two_matrices_refuted.
Print Assumptions C53_matrix_refuted.
Definition gW : entry := Entry KTable [13; 0] [17] (ljust 8 (s2l "TblSet")) [0] [0] (Buf true ([18; 0] ++ zeros 18)).
Theorem C53_settings_refuted : exists w g w' es, group ns0 gv0 ps0 [gW; gA] (s2l "GROUP") = (w, Ok g) /\
  ungroup ns0 gv0 ps0 g None = (w', Ok es) /\ ~ Forall2 same_raw es [gW; gA].
Proof.
  do 4 eexists. split; [vm_compute; reflexivity|]. split; [vm_compute; reflexivity|].
  intros H. inversion H as [|? ? ? ? SR]; subst. destruct SR as (_ & _ & N & _). discriminate N.
Qed.
Print Assumptions C53_settings_refuted.
Definition gL : entry := Entry KRealList [13; 0] [1] (93 :: zeros 7) [0] [0] (Buf true ([1; 0] ++ [0; 128; 16; 0; 0; 0; 0; 0; 0])).
Definition gC : entry := Entry KComplex [13; 0] [12] (65 :: zeros 7) [0] [0] (Buf true ([12; 128; 16; 0; 0; 0; 0; 0; 0; 12; 128; 16; 0; 0; 0; 0; 0; 0])).
Example C53_example : list_type 1 /\ complex_type 12 /\ Forall2 member [gA] [imA] /\
  snd (group ns0 gv0 ps0 [gA; gL] (s2l "GROUP")) = Err IndexError /\
  snd (group ns0 gv0 ps0 [gA; gC] (s2l "GROUP")) = Err ValueError /\
  snd (group ns0 gv0 ps0 [flashless] (s2l "GROUP")) = Err AttributeError.
Proof.
  split; [cbn; tauto|]. split; [cbn; tauto|]. split; [repeat constructor; exact mA|].
  split; [vm_compute; reflexivity|]. split; vm_compute; reflexivity.
Qed.
