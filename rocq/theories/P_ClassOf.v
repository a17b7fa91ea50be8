(** C148: the classes of the entries that a file gives. *)
From Verif Require Import PyBase M_Data M_Flags M_Models M_Class M_Var M_Real M_File M_Copy
  L_Base S_Data L_Data L_Flags S_Var L_Models P_Models L_Var L_VarFile P_Var S_File P_File L_Pil P_Copy S_Gdb S_ClassOf L_ClassOf P_Gdb.

(** * C148: the class of an entry of a file *)
(** Assembly programs are those of C51. *)
Notation asked ps := (class_asked (fun d => is_asm ps d = true)).
(** Loading an entry through TIEntry gives the class that its type byte and its data
    ask for, and no other. *)
Theorem C148_entry : forall ps e, restorable e ->
  exists w x t, entry_load ps KEntry (image_of e) = (w, Ok x) /\ same_raw x e /\ e_type e = [t] /\
    forall c, e_cls x = c <-> asked ps t (b_data (e_data e)) c.
Proof.
  intros ps e R. pose proof R as (St & NA & SD). destruct (load_storable ps KEntry e [] St NA SD) as (w & x & H & S & _). rewrite app_nil_r in H.
  destruct (restored_class ps e w x R H) as (t & T & C). exists w, x, t. repeat (split; [assumption|]). exact C.
Qed.
Print Assumptions C148_entry.
(** So do the entries of a var file. *)
Theorem C148_var : forall ns gv ps order so m v b w0 e0 w v',
  header_wf (v_header v) -> Forall restorable (v_entries v) -> entry_length v < 65536 ->
  entry_default ns gv ps = (w0, Ok e0) -> no_structural w0 ->
  var_bytes v = Ok b -> var_load ns gv ps order so (Var (v_header v) [] m) b = (w, Ok v') ->
  Forall2 (fun e' e => exists t, e_type e = [t] /\ forall c, e_cls e' = c <-> asked ps t (b_data (e_data e)) c) (v_entries v') (v_entries v).
Proof.
  intros ns gv ps order so m v b w0 e0 w v' HW G L D Q E LD.
  assert (SE : Forall storable (v_entries v)) by (eapply Forall_impl; [|exact G]; intros ? (?&_); auto).
  rewrite var_bytes_image in E by auto. injection E as <-. rewrite entry_length_spec in L by auto.
  set (s := zsum (concat (map image_of (v_entries v))) mod 65536).
  exact (var_load_class ns gv ps order so (Var (v_header v) [] m) (v_header v) (v_entries v) (s mod 256) (s / 256) [] w0 e0 w v' HW G L D Q LD).
Qed.
Print Assumptions C148_var.
(** A copy of a var equals it exactly if every entry has the class its bytes ask for. *)
Theorem C148_copy : forall ns gv ps order so name v w0 e0 w v',
  header_wf (v_header v) -> Forall restorable (v_entries v) -> entry_length v < 65536 ->
  entry_default ns gv ps = (w0, Ok e0) -> no_structural w0 ->
  var_copy ns gv ps order so (name, v) = (w, Ok v') ->
  (var_eq (snd v') v = Ok true <->
   Forall (fun e => exists t, e_type e = [t] /\ asked ps t (b_data (e_data e)) (e_cls e)) (v_entries v)).
Proof.
  intros ns gv ps order so name v w0 e0 w v' HW G L D Q CP.
  assert (SE : Forall storable (v_entries v)) by (eapply Forall_impl; [|exact G]; intros ? (?&_); auto).
  pose proof (C14_var_bytes v SE L) as B.
  destruct (C147_copy ns gv ps order so name v w0 e0 HW G L D Q) as (w1 & v1 & CP1 & _ & _ & _ & _ & _ & EQ).
  rewrite CP in CP1. injection CP1 as _ ->. cbn [snd]. rewrite EQ.
  destruct (C14_var_roundtrip ns gv ps order so None v _ w0 e0 HW G L D Q eq_refl B) as (w2 & v2 & LD & _).
  assert (v2 = v1).
  { unfold var_copy, var_new in CP. rewrite h0_default in CP. cbn [snd] in CP. unfold oret at 1 2 3 in CP. cbn [obind app] in CP. rewrite B in CP. unfold olift in CP. cbn [obind app] in CP.
    replace (var_load ns gv ps order so (Var h0 [] None)) with (var_load ns gv ps order so (Var (v_header v) [] None)) in CP by reflexivity. rewrite LD in CP. unfold oret in CP. cbn [obind] in CP. congruence. }
  subst v2. pose proof (C148_var ns gv ps order so None v _ w0 e0 w2 v1 HW G L D Q B LD) as F. clear - F.
  induction F as [|a b la lb (t & T & C) F IH]; [split; [constructor|reflexivity]|]. cbn [map]. split.
  - intros H. injection H as H1 H2. constructor; [exists t; split; [exact T|now apply C]|now apply IH].
  - intros H. inversion H as [|? ? (t' & T' & C') H2]; subst. assert (t' = t) by congruence. subst t'. f_equal; [now apply C|now apply IH].
Qed.
Print Assumptions C148_copy.
(** A graph database without colours comes back as one with colours. *)
Theorem C148_mono_refuted : exists e w v', e_cls e = KMonoFunc /\ restorable e /\
  copy0 (s2l "GDB1", Var some_header [e] None) = (w, Ok v') /\ var_bytes (snd v') = var_bytes (Var some_header [e] None) /\
  map e_cls (v_entries (snd v')) = [KFunc] /\ var_eq (snd v') (Var some_header [e] None) = Ok false.
Proof.
  exists (gdb_entry KMonoFunc (gdb_bytes (func_ex None))). do 2 eexists. split; [reflexivity|]. split.
  - split; [|split].
    + constructor; try (eexists; split; [reflexivity|unfold is_byte; lia]); try reflexivity; try (right; reflexivity); discriminate.
    + intros [_ X]. discriminate X.
    + exists 8. split; [reflexivity|]. split; [discriminate|]. split; intros X; exfalso; cbn in X; intuition discriminate.
  - split; [vm_compute; reflexivity|]. repeat apply conj; vm_compute; reflexivity.
Qed.
Print Assumptions C148_mono_refuted.
(** A file with a program of type 6, a complex list stored under the type of real
    lists, a black and white picture stored as an image, and an unknown type. *)
Definition mixed : list entry :=
  [ Entry KProtectedProgram [13; 0] [6] (s2l "LOCKED" ++ zeros 2) [0] [0] (Buf true [2; 0; 222; 42]);
    Entry KRealList [13; 0] [1] ([93; 0] ++ zeros 6) [0] [128] (Buf true ([1; 0] ++ [12; 128; 16] ++ zeros 6 ++ [12; 128; 32] ++ zeros 6));
    Entry KImage [13; 0] [26] ([60; 0] ++ zeros 6) [0] [128] (Buf true ([244; 2] ++ zeros 756));
    Entry KEntry [11; 0] [200] (s2l "WHAT" ++ zeros 4) [0] [0] (Buf true [1; 2; 3]) ].
Lemma mixed_restorable : Forall restorable mixed.
Proof.
  assert (X : forall c m t n v a d, m = [13; 0] \/ m = [11; 0] /\ v = 0 /\ a = 0 -> is_byte t -> length n = 8%nat -> is_byte v -> is_byte a -> zlen d < 65536 ->
    v + 256 * a <> zlen d -> consistent t d -> restorable (Entry c m [t] n [v] [a] (Buf true d))).
  { intros c m t n v a d M Bt Ln Bv Ba Ld NE Cn. split; [|split].
    - constructor; cbn; try (eexists; split; [reflexivity|assumption]); try assumption; try reflexivity.
      + destruct M as [->|(-> & _)]; [now right|now left].
      + intros ->. destruct M as [M|(_ & -> & ->)]; [discriminate M|now split].
    - intros [_ Q]. cbn in Q. apply NE. apply (f_equal le_int) in Q. cbn [le_int] in Q. change [zlen d mod 256; zlen d / 256] with (le16 (zlen d)) in Q. rewrite le_int_le16 in Q by (pose proof (zlen_nonneg d); lia). lia.
    - exists t. split; [reflexivity|exact Cn]. }
  unfold mixed. repeat (constructor; [apply X; [tauto|unfold is_byte; lia|reflexivity|unfold is_byte; lia|unfold is_byte; lia|vm_compute; reflexivity|vm_compute; discriminate|
    split; [discriminate|]; split; intros I; first [vm_compute; discriminate|exfalso; cbn in I; intuition discriminate]]|]). constructor.
Qed.
Example C148_example : Forall restorable mixed /\ header_wf some_header /\
  exists b w v', var_bytes (Var some_header mixed None) = Ok b /\ var_load ns0 gv0 ps0 model_index so0 (Var some_header [] None) b = (w, Ok v') /\
    map e_cls (v_entries v') = [KProtectedProgram; KComplexList; KMonoPicture; KEntry] /\ var_eq v' (Var some_header mixed None) = Ok false.
Proof.
  split; [exact mixed_restorable|]. split.
  { unfold header_wf. cbn. repeat split; try reflexivity. exists 10. split; [reflexivity|unfold is_byte; lia]. }
  do 3 eexists. split; [vm_compute; reflexivity|]. split; [vm_compute; reflexivity|]. split; vm_compute; reflexivity.
Qed.
