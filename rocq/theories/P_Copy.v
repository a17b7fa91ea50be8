(** C147: copies of vars. *)
From Verif Require Import PyBase M_Data M_Flags M_Models M_Class M_Var M_Real M_File M_Copy
  L_Base S_Data L_Data L_Flags S_Var L_Models P_Models L_Var L_VarFile P_Var S_File P_File L_Pil.

(** * C147: copies of vars *)
(** A copy has the bytes of its original and no model and name. *)
Theorem C147_copy : forall ns gv ps order so name v w0 e0,
  header_wf (v_header v) -> Forall restorable (v_entries v) -> entry_length v < 65536 ->
  entry_default ns gv ps = (w0, Ok e0) -> no_structural w0 ->
  exists w v', var_copy ns gv ps order so (name, v) = (w, Ok (s2l "UNNAMED", v')) /\ no_structural w /\
    v_header v' = v_header v /\ v_model v' = None /\ var_bytes v' = var_bytes v /\ var_bool v' = var_bool v /\
    (var_eq v' v = Ok true <-> map e_cls (v_entries v') = map e_cls (v_entries v)).
Proof.
  intros ns gv ps order so name v w0 e0 HW G L D Q.
  assert (SE : Forall storable (v_entries v)) by (eapply Forall_impl; [|exact G]; intros ? (?&_); auto).
  pose proof (C14_var_bytes v SE L) as B.
  destruct (C14_var_roundtrip ns gv ps order so None v _ w0 e0 HW G L D Q eq_refl B) as (w & v' & LD & H & M & S & W).
  pose proof (Forall2_storable _ _ S SE) as SE'. pose proof (Forall2_images _ _ S) as IM.
  exists w, v'. split.
  { unfold var_copy, var_new. rewrite h0_default. cbn [snd]. unfold oret at 1 2 3. cbn [obind app]. rewrite B. unfold olift. cbn [obind app].
    replace (var_load ns gv ps order so (Var h0 [] None)) with (var_load ns gv ps order so (Var (v_header v) [] None)) by reflexivity. rewrite LD. unfold oret. cbn [obind]. now rewrite app_nil_r. }
  split; [exact W|]. split; [exact H|]. split; [exact M|]. split.
  { rewrite B. rewrite C14_var_bytes, H, IM; [reflexivity|exact SE'|]. rewrite entry_length_spec, IM, <- entry_length_spec by assumption. exact L. }
  split. { unfold var_bool, var_is_empty. f_equal. f_equal. f_equal. clear - S. induction S; cbn; congruence. }
  rewrite (C92_var v' v SE' SE). clear - S. split.
  - intros F. induction F as [|a b la lb [C _] F IH]; [reflexivity|]. inversion S; subst. cbn [map]. rewrite C. now rewrite IH.
  - intros F. induction S as [|a b la lb SR S IH]; [constructor|]. cbn [map] in F. injection F as F1 F2. constructor; [now split|auto].
Qed.
Print Assumptions C147_copy.
(** The name of the file: the name as it is, even with a dot in it, and the extension. *)
Theorem C147_filename : forall order n v w x, extension order v = (w, Ok x) -> var_filename order (n, v) = (w, Ok (n ++ s2l "." ++ x)).
Proof. intros order n v w x E. unfold var_filename, save_name. cbn [fst snd]. rewrite E. cbn [obind oret]. now rewrite app_nil_r. Qed.
(** A copy is saved under another name, and for another model; copying an entry that
    is still a TIEntry gives another class and thereby an unequal var. *)
Theorem C147_copy_refuted : forall order so, exists v w v', var_copy ns0 gv0 ps0 order so (s2l "HI", v) = (w, Ok v') /\ var_bytes (snd v') = var_bytes v /\ var_eq (snd v') v = Ok true /\
  var_filename order (s2l "HI", v) = oret (s2l "HI.83p") /\ var_filename order v' = oret (s2l "UNNAMED.8xp").
Proof.
  intros order so. exists (Var some_header [hello] (Some TI_83)). do 2 eexists. split; [vm_compute; reflexivity|]. split; [vm_compute; reflexivity|]. split; [vm_compute; reflexivity|].
  split; [|vm_compute; reflexivity]. unfold var_filename. cbn [fst snd]. rewrite (C19_listed_model order _ hello TI_83 (s2l "83p")); [reflexivity|split; reflexivity|vm_compute; tauto|discriminate].
Qed.
Print Assumptions C147_copy_refuted.
Definition copy0 := var_copy ns0 gv0 ps0 (fun _ => 0) (fun l => l).
Theorem C147_class_refuted : exists v w v', copy0 (s2l "HI", v) = (w, Ok v') /\ var_bytes (snd v') = var_bytes v /\ var_eq (snd v') v = Ok false.
Proof.
  exists (Var some_header [with_cls hello KEntry] None). do 2 eexists. split; [vm_compute; reflexivity|]. repeat apply conj; vm_compute; reflexivity.
Qed.
Print Assumptions C147_class_refuted.
(** Clearing a var leaves an empty one; a var is true exactly if it has entries. *)
Theorem C147_empty : forall v, var_bool (var_clear v) = false /\ (var_bool v = true <-> v_entries v <> []) /\
  var_bytes (var_clear v) = Ok (header_bytes (v_header v) ++ [0; 0; 0; 0]).
Proof.
  intros v. split; [reflexivity|]. split; [|reflexivity]. unfold var_bool, var_is_empty. destruct (v_entries v); cbn [length]; split; try discriminate; try contradiction.
  intros _. destruct (Z.eqb_spec (Z.of_nat (S (length l))) 0); [lia|reflexivity].
Qed.
Print Assumptions C147_empty.
Example C147_example : exists w v', copy0 (s2l "TWO", Var some_header [hello; flashless] (Some TI_84P)) = (w, Ok v') /\
  fst v' = s2l "UNNAMED" /\ map e_cls (v_entries (snd v')) = [KProgram; e_cls flashless] /\ header_wf some_header /\ Forall restorable [hello; flashless].
Proof.
  do 2 eexists. split; [vm_compute; reflexivity|]. split; [reflexivity|]. split; [reflexivity|]. split; [|constructor; [exact hello_restorable|constructor; [exact flashless_restorable|constructor]]].
  unfold header_wf. cbn. repeat split; try reflexivity. exists 10. split; [reflexivity|unfold is_byte; lia].
Qed.
(** [TIVar(name="A.B").filename]. *)
Example C147_filename_example : var_filename (fun _ => 0) (s2l "A.B", Var some_header [hello] None) = oret (s2l "A.B.8xp").
Proof. apply (C147_filename _ (s2l "A.B") _ [] (s2l "8xp")). vm_compute. reflexivity. Qed.
