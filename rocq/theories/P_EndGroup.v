(** C159: a group saved to a file, opened again and ungrouped. *)
From Verif Require Import L_Base M_Data M_Numeric M_Flags M_Models M_Class M_Var M_List M_Group
  S_Data L_Data L_Flags S_Var L_Models P_Models L_Var L_VarFile P_Var L_List S_Group L_Group P_Group L_Pil S_ClassOf L_ClassOf P_ClassOf P_End P_EndPic P_EndNum.

(** The class of an entry is the registered one of its type byte. *)
Definition registered (x : entry) : Prop := exists t, e_type x = [t] /\ get_type t = Some (e_cls x).

Lemma group_made ns gv ps xs bs name : okay (ns KEntry (s2l "UNNAMED")) -> okay (ns KGroup name) ->
  xs <> [] -> Forall2 member xs bs -> Forall (versioned gv) xs -> zlen (concat bs) < 65536 ->
  exists w g, group ns gv ps xs name = (w, Ok g) /\ is_group g (concat bs).
Proof.
  intros NS NG NE M V L. destruct xs as [|x r]; [congruence|]. unfold group.
  assert (FB : (match flash_bytes x with [] => false | _ => true end) = true) by (inversion M as [|? ? ? ? H]; subst; destruct H; reflexivity).
  rewrite FB. destruct (group_new_ok ns gv ps name NG) as (w1 & g0 & E0 & G0).
  destruct (group_loop_ok ns gv ps NS (x :: r) bs M V [] [] g0 (Forall2_nil _) (Forall_nil _) G0 L) as (w2 & g & E & G).
  rewrite E0. cbn [obind]. rewrite E.
  assert (W : exists w', owarn_if (match r with [] => true | _ => false end) WGroup = (w', Ok tt)) by (unfold owarn_if; destruct r; eexists; reflexivity).
  destruct W as [w4 ->]. cbn [obind]. do 2 eexists. split; [reflexivity|]. exact G.
Qed.
Lemma raw_image a b : same_raw a b -> image_of a = image_of b.
Proof. intros (H1 & H2 & H3 & H4 & H5 & H6). unfold image_of. now rewrite H1, H2, H3, H4, H5, H6. Qed.

Section File.
  Variable ns : cls -> str -> out bytes.
  Variable gv : entry -> option bytes -> out Z.
  Variable ps : bytes -> option bool.
  Variable order : model -> Z.
  Variable so : list model -> list model.
  Variable w0 : list warning.
  Variable e0 : entry.
  Hypothesis DF : entry_default ns gv ps = (w0, Ok e0).
  Hypothesis QD : no_structural w0.
  Notation reopened := (reopened ns gv ps order so).

(** The group is made, and whenever the file can be written it holds, after opening,
    a group at the same place that ungroups to the members. *)
Theorem C159_group : forall h pre post xs bs name, Forall (sound ps) pre -> Forall (sound ps) post ->
  okay (ns KEntry (s2l "UNNAMED")) -> okay (ns KGroup name) ->
  xs <> [] -> Forall2 member xs bs -> Forall (versioned gv) xs -> zlen (concat bs) < 65536 ->
  exists w g, group ns gv ps xs name = (w, Ok g) /\
    (fits h (pre ++ g :: post) -> exists vs g' w' es, reopened h (pre ++ g :: post) vs /\ nth_error vs (length pre) = Some g' /\
       ungroup ns gv ps g' None = (w', Ok es) /\ Forall2 (regained ps) es xs).
Proof.
  intros h pre post xs bs name G1 G2 NS NG NE M V L.
  destruct (group_made ns gv ps xs bs name NS NG NE M V L) as (w & g & E & G).
  exists w, g. split; [exact E|]. intros FT.
  destruct (C52_group_roundtrip ns gv ps xs bs name NS NG NE M V L) as (w1 & g1 & w' & es & E1 & _ & _ & _ & U & R).
  rewrite E in E1. injection E1 as _ <-.
  exists (pre ++ g :: post), g, w', es. split; [|split; [|now split]].
  - destruct G as (n & v & a & -> & _). apply (C157_plain ns gv ps order so w0 e0 DF QD) with 23; auto. cbn. tauto.
  - rewrite nth_error_app2 by lia. now rewrite Nat.sub_diag.
Qed.
(** Members of registered classes come back as they are. *)
Theorem C159_exact : forall xs es, ps [] <> Some true -> Forall registered xs -> Forall2 (regained ps) es xs -> es = xs.
Proof.
  intros xs es P R F. induction F as [|e x es xs (SR & C) F IH]; [reflexivity|]. inversion R as [|? ? (t & T & K) R']; subst.
  f_equal; [|auto]. apply same_entry_raw; [exact SR|]. pose proof (C P t T) as Q. congruence.
Qed.
(** Whatever their classes, saving what came back is saving the members. *)
Theorem C159_same_file : forall h xs es, Forall2 (regained ps) es xs -> fits h xs ->
  exists b, var_bytes (Var h xs None) = Ok b /\ var_bytes (Var h es None) = Ok b.
Proof.
  intros h xs es F (HW & S & A & L).
  assert (SE : Forall storable es /\ map image_of es = map image_of xs).
  { clear - F S. induction F as [|e x es xs (SR & _) F IH]; [now split|]. inversion S as [|? ? S1 S2]; subst.
    destruct (IH S2) as (I1 & I2). split.
    - constructor; [|exact I1]. destruct SR as (H1 & H2 & H3 & H4 & H5 & H6). destruct S1. constructor; rewrite ?H1, ?H2, ?H3, ?H4, ?H5, ?H6; assumption.
    - cbn [map]. now rewrite I2, (raw_image e x SR). }
  destruct SE as (SE & IM).
  assert (LE : entry_length (Var h es None) = entry_length (Var h xs None)).
  { unfold entry_length. cbn [v_entries]. clear - IM S SE. revert es SE IM. induction S as [|x xs S1 S2 IH]; intros [|e es] SE IM; try discriminate IM; [reflexivity|].
    inversion SE; subst. cbn [map] in IM. injection IM as I1 I2. specialize (IH es ltac:(assumption) I2).
    change (entry_len e + zsum (map entry_len es) = entry_len x + zsum (map entry_len xs)). rewrite !entry_len_image by assumption. congruence. }
  rewrite (C14_var_bytes (Var h xs None)) by assumption. rewrite (C14_var_bytes (Var h es None)); [|assumption|now rewrite LE].
  cbn [v_entries v_header]. rewrite IM. eexists. split; reflexivity.
Qed.
End File.
Print Assumptions C159_group.
Print Assumptions C159_exact.
Print Assumptions C159_same_file.

Example C159_example : exists w g b wl w', group ns0 gv0 ps0 [gA; gP; gS] (s2l "GROUP") = (w, Ok g) /\ e_cls g = KGroup /\ Forall registered [gA; gP; gS] /\
  var_bytes (Var some_header [gP; g] None) = Ok b /\ var_load ns0 gv0 ps0 model_index so0 (Var h0 [] None) b = (wl, Ok (Var some_header [gP; g] None)) /\
  ungroup ns0 gv0 ps0 g None = (w', Ok [gA; gP; gS]).
Proof.
  do 5 eexists. split; [vm_compute; reflexivity|]. split; [reflexivity|].
  split; [repeat apply Forall_cons; [..|apply Forall_nil]; eexists; (split; [reflexivity|]); reflexivity|].
  split; [vm_compute; reflexivity|]. split; vm_compute; reflexivity.
Qed.
Example C159_example_fits : forall w g, group ns0 gv0 ps0 [gA; gP; gS] (s2l "GROUP") = (w, Ok g) -> fits some_header [gP; g] /\ sound ps0 gP.
Proof.
  intros w g E. vm_compute in E. injection E as _ <-. split; [split; [|split; [|split]]|].
  - repeat split; try (eexists; split; [reflexivity|]); try reflexivity; unfold is_byte; lia.
  - repeat apply Forall_cons; [..|apply Forall_nil]; constructor; try (right; reflexivity); try (eexists; split; [reflexivity|unfold is_byte; lia]); try reflexivity; intros H; discriminate H.
  - repeat apply Forall_cons; [..|apply Forall_nil]; intros (_ & H); vm_compute in H; discriminate H.
  - vm_compute. reflexivity.
  - split; exists 5; (split; [reflexivity|]); vm_compute; intuition (try congruence).
Qed.
