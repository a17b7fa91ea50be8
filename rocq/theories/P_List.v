(** Lists and matrices: C36, C37, C38, C39. *)
From Verif Require Import PyBase M_Data M_Numeric M_Flags M_Models M_Class M_Var M_Real M_Complex M_List L_Base S_Data L_Data S_Var L_Var P_Var S_Complex P_Complex S_List L_List.

(** The entry is stored with its version and archive bytes. *)
Definition flash_entry (e : entry) : Prop :=
  e_meta e = [13; 0] /\ exists v a, e_version e = [v] /\ e_archived e = [a].
(** [y] is a number of the same class as [x] with the same bytes. *)
Definition same_elem (x y : entry) : Prop := e_cls y = e_cls x /\ calc_data y = calc_data x.

Lemma flash_has e b : flash_entry e -> has_flash (with_data e b) = true.
Proof.
  intros (M & v & a & V & A). unfold has_flash, flash_bytes, with_data, meta_length. cbn. rewrite M, V, A. reflexivity.
Qed.
Lemma elems_ok ns ps k xs : names_ok ns -> (forall x, In x xs -> payload_for k (e_cls x) (calc_data x)) ->
  exists ys, omapM (elem_new ns ps (elem_cls k) true) (map calc_data xs) = oret ys /\ Forall2 same_elem xs ys.
Proof.
  intros N H. induction xs as [|x xs IH]; [exists []; split; [reflexivity|constructor]|].
  destruct IH as (ys & E & F); [intros; apply H; now right|].
  destruct (elem_new_payload ns ps N k (e_cls x) (calc_data x)) as (y & Y & C & D); [apply H; now left|].
  exists (y :: ys). split; [|constructor; [split|]; auto]. cbn [map omapM]. rewrite Y, obind_oret, E. reflexivity.
Qed.
Lemma payload_size k c d : payload_for k c d -> length d = elem_size k /\ (0 < elem_size k)%nat.
Proof.
  destruct k; cbn [payload_for]; try tauto; intros H; (split; [exact (proj1 H)|vm_compute; lia]).
Qed.
Lemma payload_sizes k xs : (forall x, In x xs -> payload_for k (e_cls x) (calc_data x)) ->
  Forall (fun d => length d = elem_size k) (map calc_data xs).
Proof.
  intros H. apply Forall_map, Forall_forall. intros x I. exact (proj1 (payload_size _ _ _ (H x I))).
Qed.

(** C36: the elements of a list come back, in order, with their bytes and their
    classes, and the length field holds their number.  More than 999 elements
    give one warning. *)
Theorem C36_roundtrip : forall ns ps e D xs, names_ok ns -> In (e_cls e) [KRealList; KComplexList] -> flash_entry e ->
  e_data e = Buf true D -> (2 <= length D)%nat -> zlen xs < 65536 ->
  (forall x, In x xs -> payload_for (e_cls e) (e_cls x) (calc_data x)) ->
  exists e' ys, load_list e xs = (if 999 <? zlen xs then [WListLength] else [], Ok e') /\
    list_elems ns ps e' = oret ys /\ Forall2 same_elem xs ys /\
    list_length e' = zlen xs /\ data e' = concat (map calc_data xs) /\
    e_cls e' = e_cls e /\ e_name e' = e_name e /\ e_type e' = e_type e /\ flash_entry e'.
Proof.
  intros ns ps e D xs N K FE ED L H P. pose proof (zlen_nonneg xs) as Z0.
  rewrite (load_list_ok e D xs) by auto. eexists.
  assert (DA : data (with_data e (Buf true (le_bytes 2 (zlen xs) ++ concat (map calc_data xs)))) = concat (map calc_data xs)).
  { unfold data, with_data. cbn [e_cls e_data]. replace (data_view (e_cls e)) with (View (Some 2) None, DBytes)
      by (destruct K as [<-|[<-|[]]]; reflexivity). cbn [fst view_get]. unfold view_get. cbn [v_start v_stop b_data].
    rewrite py_slice_from by lia. apply skipn_app_exact, le_bytes_length. }
  destruct (elems_ok ns ps (e_cls e) xs N P) as (ys & Y & F). exists ys. split; [reflexivity|].
  split. { unfold list_elems. rewrite DA, flash_has by auto. cbn [with_data e_cls].
    rewrite chunks_concat; auto using payload_sizes. destruct K as [<-|[<-|[]]]; vm_compute; lia. }
  split; [exact F|]. split.
  { unfold list_length, with_data, view_get. cbn [e_data v_start v_stop b_data].
    rewrite py_slice_nn by (unfold zlen; rewrite ?app_length, ?le_bytes_length; lia).
    change (Z.to_nat 0) with 0%nat. cbn [skipn]. change (Z.to_nat (2 - 0)) with 2%nat. rewrite firstn_app_exact by apply le_bytes_length.
    apply le_int_le_bytes. cbn. lia. }
  split; [exact DA|]. repeat split; [exact (proj1 FE)|exact (proj2 FE)].
Qed.
Print Assumptions C36_roundtrip.
(** 65536 or more elements do not fit the length field. *)
Theorem C36_limit : forall e xs, 65536 <= zlen xs -> load_list e xs = ([WListLength], Err OverflowError).
Proof. intros. now apply load_list_over. Qed.
Print Assumptions C36_limit.
Definition list0 (c : cls) (t : Z) : entry := Entry c [13; 0] [t] [93; 0; 0; 0; 0; 0; 0; 0] [0] [0] (Buf true [0; 0]).
Definition num (c : cls) (t : Z) (d : bytes) : entry := Entry c [13; 0] [t] [65; 0; 0; 0; 0; 0; 0; 0] [0] [0] (Buf true d).
Definition one : entry := num KReal 0 [0; 128; 16; 0; 0; 0; 0; 0; 0].
Definition half : entry := num KRealFraction 24 [152; 127; 80; 0; 0; 0; 0; 0; 0].
Definition nums : list entry := [one; half; one].
Lemma names_ok_ns0 : names_ok ns0.
Proof. intros c _. exists (s2l "A"). split; [reflexivity|]. vm_compute. lia. Qed.
Example C36_example : names_ok ns0 /\ (forall x, In x nums -> payload_for KRealList (e_cls x) (calc_data x)) /\
  flash_entry (list0 KRealList 1) /\
  exists e ys, load_list (list0 KRealList 1) nums = oret e /\ list_elems ns0 ps0 e = oret ys /\
    map e_cls ys = [KReal; KRealFraction; KReal] /\ map calc_data ys = map calc_data nums.
Proof.
  split; [exact names_ok_ns0|]. split.
  { intros x [<-|[<-|[<-|[]]]]; (split; [reflexivity|]; split; [apply wf_bytesb_spec; reflexivity|]); cbn; auto 10. }
  split; [split; [reflexivity|]; exists 0, 0; split; reflexivity|].
  do 2 eexists. split; [vm_compute; reflexivity|]. split; [vm_compute; reflexivity|]. split; reflexivity.
Qed.

(** An element of a flashless list cannot be built, so [list()] of any
    non-empty flashless list fails. *)
Theorem C36_flashless_refuted : forall ns ps e, In (e_cls e) [KRealList; KComplexList] -> e_meta e = [11; 0] ->
  (elem_size (e_cls e) <= length (data e))%nat -> list_elems ns ps e = ([], Err AttributeError).
Proof.
  intros ns ps e K M L. unfold list_elems. assert (S0 : (0 < elem_size (e_cls e))%nat) by (destruct K as [<-|[<-|[]]]; vm_compute; lia).
  destruct (chunks_spec (elem_size (e_cls e)) (data e) S0) as (tl & E & T & _).
  destruct (chunks (elem_size (e_cls e)) (data e)) as [|x r]; [cbn in E; rewrite E in L; lia|].
  replace (has_flash e) with false; [reflexivity|]. unfold has_flash, flash_bytes, meta_length. rewrite M.
  change (integer_get [11; 0] - 11) with 0. unfold py_slice, slice_start, slice_stop, norm_idx. cbn.
  rewrite Z.min_l by apply zlen_nonneg. reflexivity.
Qed.
Print Assumptions C36_flashless_refuted.
Example C36_flashless_example : exists e, In (e_cls e) [KRealList; KComplexList] /\ e_meta e = [11; 0] /\
  (elem_size (e_cls e) <= length (data e))%nat /\ list_length e = 1.
Proof.
  exists (Entry KRealList [11; 0] [1] [93; 0; 0; 0; 0; 0; 0; 0] [0] [0] (Buf true [1; 0; 0; 128; 16; 0; 0; 0; 0; 0; 0])).
  split; [now left|]. split; [reflexivity|]. split; [vm_compute; lia|reflexivity].
Qed.
(** A real number that was assigned as a part of a complex number (C34) can no
    longer be read from a real list. *)
Theorem C36_operand_refuted : exists e0 x e1 x' e, set_real e0 x = oret (e1, x') /\
  load_list (list0 KRealList 1) [num KReal 0 (b_data (r_buf x'))] = oret e /\
  load_list (list0 KRealList 1) [num KReal 0 (b_data (r_buf x))] <> oret e /\
  list_elems ns0 ps0 e = ([], Err ValueError).
Proof.
  exists cplx0, (Real KReal (Buf true [0; 128; 16; 0; 0; 0; 0; 0; 0])). do 3 eexists. split; [vm_compute; reflexivity|].
  split; [vm_compute; reflexivity|]. split; [vm_compute; discriminate|vm_compute; reflexivity].
Qed.
Print Assumptions C36_operand_refuted.

(** C37: matrices.  The warnings are listed exactly: the first size test uses
    the height stored before the call. *)
Definition rectangular (w : Z) (m : list (list entry)) : Prop := Forall (fun r => zlen r = w) m.
Definition too_big (b : bool) : list warning := if b then [WMatrixSize] else [].
Lemma uneven_false m w : rectangular w m -> uneven m = false.
Proof.
  intros H. destruct m as [|r m]; [reflexivity|]. inversion H as [|? ? H1 H2]; subst. cbn [uneven].
  replace (forallb _ m) with true; [reflexivity|]. symmetry. apply forallb_forall. intros x I.
  rewrite Forall_forall in H2. apply H2 in I. apply Nat.eqb_eq. unfold zlen in I. lia.
Qed.
Lemma rows_ok ns ps m : names_ok ns -> Forall (Forall (fun x => real_payload (e_cls x) (calc_data x))) m ->
  exists rows, omapM (omapM (elem_new ns ps KRealEntry true)) (map (map calc_data) m) = oret rows /\
    Forall2 (Forall2 same_elem) m rows.
Proof.
  intros N H. induction H as [|r m Hr H IH]; [exists []; split; [reflexivity|constructor]|].
  destruct IH as (rows & E & F).
  destruct (elems_ok ns ps KRealList r N) as (ys & Y & G); [intros x I; rewrite Forall_forall in Hr; now apply Hr|].
  exists (ys :: rows). split; [|now constructor]. cbn [map omapM]. change (elem_cls KRealList) with KRealEntry in Y.
  rewrite Y, obind_oret, E. reflexivity.
Qed.
Theorem C37_roundtrip : forall ns ps e a b D m w, names_ok ns -> e_cls e = KMatrix -> flash_entry e ->
  e_data e = Buf true (a :: b :: D) -> is_byte b -> m <> [] -> rectangular w m -> 1 <= w <= 255 -> zlen m <= 255 ->
  Forall (Forall (fun x => real_payload (e_cls x) (calc_data x))) m ->
  exists e' rows, load_matrix e m = (too_big (99 <? w) ++ too_big (400 <? w * b) ++ too_big (99 <? zlen m) ++ too_big (400 <? w * zlen m), Ok e') /\
    matrix_rows ns ps e' = oret rows /\ Forall2 (Forall2 same_elem) m rows /\
    width e' = w /\ height e' = zlen m /\ size e' = w * zlen m /\
    calc_data e' = [w; zlen m] ++ concat (map (fun r => concat (map calc_data r)) m) /\
    e_cls e' = KMatrix /\ e_name e' = e_name e /\ flash_entry e'.
Proof.
  intros ns ps e a b D m w N K FE ED Bb NE R Hw Hh P. pose proof (zlen_nonneg m) as Z0.
  destruct m as [|r0 m0]; [congruence|]. set (m := r0 :: m0) in *.
  assert (W0 : zlen r0 = w) by (now inversion R).
  rewrite (load_matrix_ok e a b D m) by (first [assumption|now apply (uneven_false m w)|cbn; lia]).
  change (match m with [] => [] | r :: _ => r end) with r0. rewrite W0.
  set (e' := with_data e (Buf true (w :: zlen m :: concat (map calc_data (concat m))))).
  destruct (rows_ok ns ps m N P) as (rows & Y & F). exists e', rows. split; [reflexivity|].
  assert (WE : width e' = w).
  { unfold width, e', with_data, view_get. cbn [e_data v_start v_stop b_data].
    rewrite py_slice_nn by (rewrite ?zlen_cons; pose proof (zlen_nonneg (concat (map calc_data (concat m)))); lia). change (w + 0 = w). lia. }
  assert (HE : height e' = zlen m).
  { unfold height, e', with_data, view_get. cbn [e_data v_start v_stop b_data].
    rewrite py_slice_nn by (rewrite ?zlen_cons; pose proof (zlen_nonneg (concat (map calc_data (concat m)))); lia). change (zlen m + 0 = zlen m). lia. }
  assert (DA : data e' = concat (map calc_data (concat m))).
  { unfold data, e', with_data. cbn [e_cls e_data]. rewrite K. change (data_view KMatrix) with (View (Some 2) None, DBytes).
    cbn [fst]. unfold view_get. cbn [v_start v_stop b_data]. now rewrite py_slice_from by lia. }
  split. { unfold matrix_rows. rewrite DA, WE. unfold e' at 1. rewrite flash_has by auto.
    rewrite (chunks_concat 9).
    - rewrite concat_map. rewrite chunks_concat; [exact Y|lia|]. apply Forall_map.
      eapply Forall_impl; [|exact R]. cbn beta. intros r Hr. rewrite map_length. unfold zlen in Hr. lia.
    - lia.
    - apply Forall_map. apply Forall_concat. eapply Forall_impl; [|exact P]. cbn beta. intros r. apply Forall_impl. intros x. exact (@proj1 _ _). }
  split; [exact F|]. split; [exact WE|]. split; [exact HE|]. split; [unfold size; now rewrite WE, HE|].
  split. { change (calc_data e') with (w :: zlen m :: concat (map calc_data (concat m))). cbn [app]. do 2 f_equal.
    clear. induction m as [|r m IH]; [reflexivity|]. cbn [concat map]. now rewrite map_app, concat_app, IH. }
  split; [exact K|]. split; [reflexivity|]. exact FE.
Qed.
Print Assumptions C37_roundtrip.
(** Rows of different lengths are refused, and nothing is changed. *)
Theorem C37_uneven : forall e m r1 r2, In r1 m -> In r2 m -> zlen r1 <> zlen r2 -> load_matrix e m = ([], Err IndexError).
Proof.
  intros e m r1 r2 I1 I2 H. unfold load_matrix. replace (uneven m) with true; [reflexivity|]. symmetry.
  destruct (uneven m) eqn:E; [reflexivity|]. exfalso. destruct m as [|r m]; [destruct I1|]. cbn [uneven] in E.
  apply negb_false_iff in E. rewrite forallb_forall in E.
  assert (G : forall x, In x (r :: m) -> length x = length r) by (intros x [<-|I]; [reflexivity|apply Nat.eqb_eq, E, I]).
  unfold zlen in H. rewrite (G r1 I1), (G r2 I2) in H. lia.
Qed.
Print Assumptions C37_uneven.
(** Too many columns or rows: the byte field refuses them. *)
Theorem C37_limit : forall e m w, rectangular w m -> m <> [] -> 255 < w -> snd (load_matrix e m) = Err OverflowError.
Proof.
  intros e m w R NE H. unfold load_matrix. rewrite (uneven_false m w R). destruct m as [|r m]; [congruence|].
  assert (W0 : zlen r = w) by (now inversion R). rewrite W0. unfold set_width.
  replace (integer_set w (Some 1%nat)) with (@Err bytes OverflowError) by (symmetry; apply integer_refuse; cbn; lia).
  unfold owarn_if. destruct (99 <? w), (400 <? _); reflexivity.
Qed.
Print Assumptions C37_limit.
(** A matrix without columns reads back without rows, whatever its height. *)
Theorem C37_no_columns_refuted : exists e m e', load_matrix e m = ([], Ok e') /\ zlen m = 3 /\
  height e' = 3 /\ matrix_rows ns0 ps0 e' = oret [].
Proof.
  exists (list0 KMatrix 2), [[]; []; []]. eexists. split; [vm_compute; reflexivity|]. split; [reflexivity|]. split; reflexivity.
Qed.
Print Assumptions C37_no_columns_refuted.
(** Loading a small matrix over a tall one warns that the matrix is too big. *)
Theorem C37_warning_refuted : exists e m e', load_matrix e m = ([WMatrixSize], Ok e') /\ size e' = 5 /\
  height e = 90.
Proof.
  exists (with_data (list0 KMatrix 2) (Buf true [1; 90])), [[one; one; one; one; half]]. eexists. split; [vm_compute; reflexivity|]. split; reflexivity.
Qed.
Print Assumptions C37_warning_refuted.
Example C37_example : let m := [[one; half]; [half; half]; [one; one]] in
  rectangular 2 m /\ Forall (Forall (fun x => real_payload (e_cls x) (calc_data x))) m /\ flash_entry (list0 KMatrix 2) /\
  exists e rows, load_matrix (list0 KMatrix 2) m = ([], Ok e) /\ matrix_rows ns0 ps0 e = oret rows /\
    map (map e_cls) rows = [[KReal; KRealFraction]; [KRealFraction; KRealFraction]; [KReal; KReal]] /\
    firstn 3 (calc_data e) = [2; 3; 0].
Proof.
  cbv zeta. assert (P1 : real_payload (e_cls one) (calc_data one)) by (split; [reflexivity|]; split; [apply wf_bytesb_spec; reflexivity|]; cbn; auto).
  assert (P2 : real_payload (e_cls half) (calc_data half)) by (split; [reflexivity|]; split; [apply wf_bytesb_spec; reflexivity|]; cbn; auto).
  split; [repeat constructor|]. split; [repeat (constructor; [repeat (constructor; [assumption|]); constructor|]); constructor|].
  split; [split; [reflexivity|]; exists 0, 0; split; reflexivity|].
  do 2 eexists. split; [vm_compute; reflexivity|]. split; [vm_compute; reflexivity|]. split; reflexivity.
Qed.

(** C38: the version computed for a list or matrix is 0 whatever it contains,
    because the element versions (at most 16) are compared with type IDs. *)
Lemma elem_version_small x (t : bytes) : In (e_cls x) [KRealEntry; KComplexEntry] ->
  length t = Z.to_nat (min_data_length (e_cls x)) -> exists v, elem_version x (Some t) = oret v /\ 0 <= v <= 16.
Proof.
  intros K L. destruct K as [K|[K|[]]].
  - exists 0. unfold elem_version. rewrite <- K. split; [reflexivity|lia].
  - rewrite <- K in L. destruct (complex_version_cases ps0 x t) as [E|[E|E]]; [now rewrite <- K|exact L| | |]; rewrite E; eexists; (split; [reflexivity|lia]).
Qed.
Theorem C38_version_refuted : forall ns ps e arg, names_ok ns -> In (e_cls e) [KRealList; KComplexList; KMatrix] ->
  list_version ns ps e arg = oret 0.
Proof.
  intros ns ps e arg N K. unfold list_version. set (d := match arg with Some _ => _ | None => _ end). clearbody d.
  assert (EK : In (elem_cls (e_cls e)) [KRealEntry; KComplexEntry]) by (destruct K as [<-|[<-|[<-|[]]]]; cbn; auto).
  destruct (elem_new_fresh ns ps N (elem_cls (e_cls e)) EK) as (x & X & C). rewrite X, obind_oret.
  assert (S0 : (0 < elem_size (e_cls e))%nat) by (destruct K as [<-|[<-|[<-|[]]]]; vm_compute; lia).
  destruct (chunks_spec (elem_size (e_cls e)) d S0) as (tl & _ & _ & F).
  assert (G : exists vs, omapM (fun t => elem_version x (Some t)) (chunks (elem_size (e_cls e)) d) = oret vs /\ Forall (fun v => 0 <= v <= 16) vs).
  { induction F as [|t l Lt F IH]; [exists []; split; [reflexivity|constructor]|]. destruct IH as (vs & E & H).
    destruct (elem_version_small x t) as (v & V & B); [now rewrite C|rewrite C; exact Lt|].
    exists (v :: vs). split; [|now constructor]. cbn [omapM]. rewrite V, obind_oret, E. reflexivity. }
  destruct G as (vs & E & H). rewrite E, obind_oret.
  assert (M : forall acc, 0 <= acc <= 16 -> 0 <= fold_left Z.max vs acc <= 16).
  { clear E. induction H as [|v vs Hv H IH]; intros acc A; [exact A|]. cbn [fold_left]. apply IH. lia. }
  specialize (M 0 ltac:(lia)). cbv zeta. replace (fold_left Z.max vs 0 >? 27) with false by lia.
  replace (fold_left Z.max vs 0 =? 27) with false by lia. reflexivity.
Qed.
Print Assumptions C38_version_refuted.
(** While the element itself gets a newer version. *)
Example C38_example : exists e ys, load_list (list0 KRealList 1) [half] = oret e /\ list_elems ns0 ps0 e = oret ys /\
  map e_version ys = [[6]] /\ list_version ns0 ps0 e None = oret 0.
Proof. do 2 eexists. split; [vm_compute; reflexivity|]. split; [vm_compute; reflexivity|]. split; reflexivity. Qed.

(** C39: no list without elements can be loaded, neither generically nor
    through a list class, stored with or without flash bytes. *)
Theorem C39_empty_refuted : forall ps c e t, In c [KEntry; KList; KRealList; KComplexList] -> storable e -> ~ ambiguous e ->
  e_type e = [t] -> list_type t -> zlen (calc_data e) <= 2 -> snd (entry_load ps c (image_of e)) = Err IndexError.
Proof.
  intros ps c e t K St NA T LT L. rewrite <- (app_nil_r (image_of e)).
  destruct St as [M (t' & T' & Bt) Nm (v & V & Bv) (a & A & Ba) NF D Mut]. assert (t' = t) by congruence. subst t'.
  assert (FI : forall w m, snd (obind (type_check c t) (fun _ => obind ((w, Ok tt) : out unit) (fun _ =>
             finish ps (Entry c m [t] (e_name e) [v] [a] (Buf true (b_data (e_data e))))))) = Err IndexError).
  { intros w m. assert (TC : exists w', type_check c t = (w', Ok tt)).
    { unfold type_check, owarn_if, owarn. destruct (type_id_of c); [|eexists; reflexivity].
      destruct (t =? z); [eexists; reflexivity|]. destruct (get_type t); eexists; reflexivity. }
    destruct TC as (w' & ->). set (x := Entry c m [t] (e_name e) [v] [a] (Buf true (b_data (e_data e)))).
    assert (C : coerce ps x = ([], Err IndexError)).
    { assert (CL : forall k, In k [KList; KRealList; KComplexList] -> coerce_list (with_cls x k) = ([], Err IndexError)).
      { intros k Ik. unfold coerce_list, data. cbn [with_cls e_cls e_data x].
        replace (data_view k) with (View (Some 2) None, DBytes) by (destruct Ik as [<-|[<-|[<-|[]]]]; reflexivity). cbn [fst].
        unfold view_get. cbn [v_start v_stop b_data]. rewrite py_slice_from by lia. rewrite skipn_ge; [reflexivity|].
        unfold calc_data, zlen in L. change (Z.to_nat 2) with 2%nat. lia. }
      destruct K as [<-|[<-|[<-|[<-|[]]]]].
      - change (coerce ps x) with (coerce_base ps x). unfold coerce_base. rewrite (type_id_byte x t eq_refl Bt). unfold olift. rewrite obind_ret_l.
        destruct LT as [<-|[<-|[]]].
        + change (coerce_own ps (with_cls x KRealList)) with (coerce_list (with_cls x KRealList)). apply CL. cbn; auto.
        + change (coerce_own ps (with_cls x KComplexList)) with (coerce_list (with_cls x KComplexList)). apply CL. cbn; auto.
      - apply (CL KList). cbn; auto.
      - apply (CL KRealList). cbn; auto.
      - apply (CL KComplexList). cbn; auto. }
    unfold finish. rewrite C. reflexivity. }
  unfold image_of. rewrite T. destruct M as [M|M]; rewrite M.
  - change (leqb (le16 11) [13; 0]) with false. cbv iota. destruct (NF M) as (V0 & A0). rewrite V in V0. rewrite A in A0. injection V0 as ->. injection A0 as ->.
    rewrite load_image_11 by auto. specialize (FI [] [11; 0]). rewrite (obind_ext _ _ (fun _ => finish ps (Entry c [11; 0] [t] (e_name e) [0] [0] (Buf true (b_data (e_data e)))))) in FI; [exact FI|].
    intros ?. rewrite obind_ret_l. reflexivity.
  - change (leqb (le16 13) [13; 0]) with true. cbv iota. rewrite V, A. change ([v] ++ [a]) with [v; a].
    rewrite load_image_13; [apply FI|auto|auto|auto|]. intros Q. apply NA. split; auto. now rewrite V, A.
Qed.
Print Assumptions C39_empty_refuted.
Example C39_empty_example : let e := list0 KRealList 1 in storable e /\ ~ ambiguous e /\ zlen (calc_data e) <= 2 /\
  list_type 1 /\ entry_bytes e = Ok (image_of e) /\ list_length e = 0 /\ entry_load ps0 KEntry (image_of e) = ([], Err IndexError).
Proof.
  cbv zeta. split.
  { constructor; try reflexivity; [now right|exists 1; split; [reflexivity|split; lia]|exists 0; split; [reflexivity|split; lia]|exists 0; split; [reflexivity|split; lia]|discriminate]. }
  split; [intros (_ & H); discriminate H|]. split; [vm_compute; discriminate|]. split; [now left|]. split; [reflexivity|]. split; reflexivity.
Qed.

(** A list with elements, saved and loaded again, generically or through its
    own class, keeps its class, its bytes and its elements. *)
Definition own_type (k : cls) (t : Z) : Prop := In (k, t) [(KRealList, 1); (KComplexList, 13)].
(** The first byte of the first element shows the kind of list: always so for
    reals; for complex numbers the real part is tagged like the imaginary one. *)
Definition head_shows (k : cls) (d : bytes) : Prop :=
  k = KComplexList -> exists c, In (nth 0 d 0 mod 64, c) complex_kinds.
Lemma land31 x : is_byte x -> Z.land x 31 = (x mod 64) mod 32.
Proof.
  intros H. change 31 with (Z.ones 5). rewrite Z.land_ones by lia. change (2 ^ 5) with 32. unfold is_byte in H. lia.
Qed.
Lemma with_cls_same e k : e_cls e = k -> with_cls e k = e.
Proof. intros <-. destruct e; reflexivity. Qed.
Lemma coerce_list_class k c d r x : In k [KRealList; KComplexList] -> payload_for k c d -> head_shows k d ->
  data x = d ++ r -> e_cls x = k -> coerce_list x = (if (nth 0 d 0 mod 64) =? 33 then [WSubtype] else [], Ok x).
Proof.
  intros K P HS D C. unfold coerce_list. rewrite D.
  assert (L : exists z d', d = z :: d' /\ is_byte z).
  { destruct K as [<-|[<-|[]]]; destruct P as (L & W & _); (destruct d as [|z d']; [discriminate L|]; exists z, d'; split; [reflexivity|now inversion W]). }
  destruct L as (z & d' & -> & B). cbn [app nth] in *. rewrite land31 by auto.
  destruct K as [K|[K|[]]]; rewrite <- K in *.
  - destruct P as (_ & _ & I). cbn [nth] in I. destruct I as [I|[I|[I|[I|[I|[I|[]]]]]]]; injection I as I1 _; rewrite <- I1;
      cbn -[with_cls]; rewrite ?(with_cls_same x KRealList C); reflexivity.
  - destruct (HS eq_refl) as (c' & I). destruct I as [I|[I|[I|[I|[I|[]]]]]]; injection I as I1 _; rewrite <- I1;
      cbn -[with_cls]; rewrite ?(with_cls_same x KComplexList C); reflexivity.
Qed.
Theorem C39_save_load : forall ns ps c e x xs t v a n, names_ok ns -> In (e_cls e) [KRealList; KComplexList] ->
  c = KEntry \/ c = e_cls e -> own_type (e_cls e) t ->
  e_meta e = [13; 0] -> e_type e = [t] -> length (e_name e) = 8%nat -> e_version e = [v] -> is_byte v -> e_archived e = [a] -> is_byte a ->
  e_data e = Buf true (n ++ concat (map calc_data (x :: xs))) -> length n = 2%nat ->
  (forall y, In y (x :: xs) -> payload_for (e_cls e) (e_cls y) (calc_data y)) -> head_shows (e_cls e) (calc_data x) ->
  zlen (calc_data e) < 65536 -> [v; a] <> le16 (zlen (calc_data e)) ->
  exists b w ys, entry_bytes e = Ok b /\ entry_load ps c b = (w, Ok e) /\ no_structural w /\
    list_elems ns ps e = oret ys /\ Forall2 same_elem (x :: xs) ys.
Proof.
  intros ns ps c e x xs t v a n N K C OT M T Nm V Bv A Ba D Ln P HS Len NA.
  assert (Bt : is_byte t) by (destruct OT as [O|[O|[]]]; injection O as _ <-; unfold is_byte; lia).
  assert (DV : data_view (e_cls e) = (View (Some 2) None, DBytes)) by (destruct K as [<-|[<-|[]]]; reflexivity).
  assert (DA : data e = calc_data x ++ concat (map calc_data xs)).
  { unfold data. rewrite DV, D. cbn [fst]. unfold view_get. cbn [v_start v_stop b_data]. rewrite py_slice_from by lia.
    now rewrite skipn_app_exact by auto. }
  assert (CO : exists w, coerce ps (with_cls e c) = (w, Ok e) /\ quietw w).
  { assert (CL : exists w, coerce_list e = (w, Ok e) /\ quietw w).
    { rewrite (coerce_list_class (e_cls e) (e_cls x) (calc_data x) (concat (map calc_data xs))); auto; [|apply P; now left].
      eexists. split; [reflexivity|]. destruct (_ =? 33); [intros y [<-|[]]; reflexivity|apply quietw_nil]. }
    destruct C as [->| ->].
    - change (coerce ps (with_cls e KEntry)) with (coerce_base ps (with_cls e KEntry)). unfold coerce_base.
      rewrite (type_id_byte (with_cls e KEntry) t T Bt). unfold olift. rewrite obind_ret_l.
      destruct OT as [O|[O|[]]]; injection O as O1 <-.
      + change (get_type 1) with (Some KRealList). cbv iota.
        change (coerce_own ps (with_cls (with_cls e KEntry) KRealList)) with (coerce_list (with_cls e KRealList)).
        rewrite with_cls_same by congruence. exact CL.
      + change (get_type 13) with (Some KComplexList). cbv iota.
        change (coerce_own ps (with_cls (with_cls e KEntry) KComplexList)) with (coerce_list (with_cls e KComplexList)).
        rewrite with_cls_same by congruence. exact CL.
    - rewrite with_cls_same by reflexivity. replace (coerce ps e) with (coerce_list e); [exact CL|].
      unfold coerce. destruct K as [K|[K|[]]]; rewrite <- K; unfold coerce_own; rewrite <- K; reflexivity. }
  destruct CO as (wc & CO & Qc).
  assert (ST : storable e).
  { constructor; [right; now rewrite M|eauto|exact Nm|eauto| |rewrite M; discriminate|exact Len|now rewrite D].
    exists a. split; auto. }

  assert (EB : entry_bytes e = Ok (entry_image 13 t (e_name e) [v; a] (calc_data e) ++ [])).
  { rewrite entry_bytes_image by auto. unfold image_of. rewrite T, M, V, A, app_nil_r. reflexivity. }
  destruct (elems_ok ns ps (e_cls e) (x :: xs) N P) as (ys & Y & F).
  eexists _, _, ys. split; [exact EB|]. rewrite load_image_13 by auto.
  replace (type_check c t) with (oret tt).
  2:{ destruct C as [->| ->]; [reflexivity|]. destruct OT as [O|[O|[]]]; injection O as <- <-; reflexivity. }
  rewrite obind_oret. unfold finish.
  replace (Entry c [13; 0] [t] (e_name e) [v] [a] (Buf true (calc_data e))) with (with_cls e c)
    by (destruct e as [? ? ? ? ? ? [mu dd]]; cbn in *; injection D as -> ->; subst; reflexivity).
  rewrite CO. unfold obind at 2. rewrite (version_byte e v V Bv). unfold olift, owarn_if. cbn [obind oret].
  split; [reflexivity|]. split.
  { apply quietw_app; [unfold flash_warn; destruct (_ || _); [apply quietw_nil|intros y [<-|[]]; reflexivity]|].
    apply quietw_app; [exact Qc|]. cbn. rewrite ?app_nil_r. apply quietw_app; destruct (_ && _); (intros y [<-|[]]; reflexivity) || apply quietw_nil. }
  split; [|exact F]. unfold list_elems. rewrite <- Y.
  assert (HF : has_flash e = true) by (unfold has_flash, flash_bytes, meta_length; rewrite M, V, A; reflexivity). rewrite HF. f_equal.
  rewrite DA. change (calc_data x ++ concat (map calc_data xs)) with (concat (map calc_data (x :: xs))).
  apply chunks_concat; [|now apply payload_sizes]. destruct K as [<-|[<-|[]]]; vm_compute; lia.
Qed.
Print Assumptions C39_save_load.
Example C39_save_load_example : let e := with_data (list0 KRealList 1) (Buf true ([3; 0] ++ concat (map calc_data nums))) in
  own_type (e_cls e) 1 /\ head_shows (e_cls e) (calc_data one) /\ zlen (calc_data e) = 29 /\
  (exists b, entry_bytes e = Ok b /\ entry_load ps0 KEntry b = ([], Ok e)).
Proof.
  cbv zeta. split; [now left|]. split; [discriminate|]. split; [reflexivity|]. eexists. split; [vm_compute; reflexivity|]. vm_compute. reflexivity.
Qed.
(** Loaded as a generic list, a list that starts with a fraction of pi stays
    without element type, and reads as having no elements. *)
Theorem C39_generic_list_refuted : exists e e' b, e_cls e = KRealList /\ entry_bytes e = Ok b /\
  list_load ps0 KList b = ([WSubtype], Ok e') /\ e_cls e' = KList /\ list_length e' = 1 /\
  list_elems ns0 ps0 e' = oret [].
Proof.
  exists (with_data (list0 KRealList 1) (Buf true [1; 0; 33; 127; 80; 0; 0; 0; 0; 0; 0])). do 2 eexists.
  split; [reflexivity|]. split; [vm_compute; reflexivity|]. split; [vm_compute; reflexivity|]. split; [reflexivity|]. split; vm_compute; reflexivity.
Qed.
Print Assumptions C39_generic_list_refuted.
(** Loading a list warns about its length if and only if the length field differs
    from the number of elements that follow. *)
Theorem C39_length_warning : forall ps c input w e lo hi r k, entry_load ps c input = (w, Ok e) -> calc_data e = lo :: hi :: r ->
  (e_cls e = KRealList /\ k = 9) \/ (e_cls e = KComplexList /\ k = 18) -> zlen r mod k < k - 2 ->
  list_load ps c input = (w ++ (if zlen r / k =? lo + 256 * hi then [] else [WListLength]), Ok e).
Proof.
  intros ps c input w e lo hi r k L D K R. unfold list_load. rewrite L. cbn [obind].
  assert (LL : list_length e = lo + 256 * hi).
  { unfold list_length, view_get. unfold calc_data in D. rewrite D. cbn [v_start v_stop]. rewrite py_slice_nn by (rewrite ?zlen_cons; pose proof (zlen_nonneg r); lia).
    change (lo + 256 * (hi + 256 * 0) = lo + 256 * hi). lia. }
  assert (N : min_data_length (elem_cls (e_cls e)) = k) by (destruct K as [[-> ->]|[-> ->]]; reflexivity). rewrite N.
  unfold calc_data_length. rewrite D, LL, !zlen_cons.
  assert (Q : (zlen r + 1 + 1) / k = zlen r / k) by (pose proof (zlen_nonneg r); destruct K as [[_ ->]|[_ ->]]; lia).
  assert (Q' : (1 + (1 + zlen r)) / k = zlen r / k) by (pose proof (zlen_nonneg r); destruct K as [[_ ->]|[_ ->]]; lia).
  rewrite ?Q, ?Q'. replace (k =? 0) with false by lia. cbn [negb andb]. unfold owarn_if, owarn. destruct (zlen r / k =? lo + 256 * hi); reflexivity.
Qed.
Print Assumptions C39_length_warning.
Theorem C37_size_warning : forall ps c input w e wd ht r, entry_load ps c input = (w, Ok e) -> calc_data e = wd :: ht :: r -> zlen r mod 9 < 7 ->
  matrix_load ps c input = (w ++ (if zlen r / 9 =? wd * ht then [] else [WMatrixSize]), Ok e).
Proof.
  intros ps c input w e wd ht r L D R. unfold matrix_load. rewrite L. cbn [obind].
  assert (SE : size e = wd * ht).
  { unfold size, width, height, view_get. unfold calc_data in D. rewrite D. cbn [v_start v_stop]. rewrite !py_slice_nn by (rewrite ?zlen_cons; pose proof (zlen_nonneg r); lia).
    change ((wd + 256 * 0) * (ht + 256 * 0) = wd * ht). lia. }
  unfold calc_data_length. rewrite D, SE, !zlen_cons.
  assert (Q : (1 + (1 + zlen r)) / 9 = zlen r / 9) by (pose proof (zlen_nonneg r); lia).
  rewrite Q. unfold owarn_if, owarn. destruct (zlen r / 9 =? wd * ht); reflexivity.
Qed.
Print Assumptions C37_size_warning.
(** A list of one element that claims two, and a 1 by 1 matrix that claims 1 by 2. *)
Example C39_warning_example :
  (exists b e, entry_bytes (with_data (list0 KRealList 1) (Buf true [2; 0; 0; 127; 80; 0; 0; 0; 0; 0; 0])) = Ok b /\ entry_load ps0 KRealList b = ([], Ok e) /\ e_cls e = KRealList /\
     calc_data e = [2; 0; 0; 127; 80; 0; 0; 0; 0; 0; 0] /\ list_load ps0 KRealList b = ([WListLength], Ok e)) /\
  (exists b e, entry_bytes (with_data (list0 KMatrix 2) (Buf true [1; 2; 0; 127; 80; 0; 0; 0; 0; 0; 0])) = Ok b /\ entry_load ps0 KMatrix b = ([], Ok e) /\
     calc_data e = [1; 2; 0; 127; 80; 0; 0; 0; 0; 0; 0] /\ matrix_load ps0 KMatrix b = ([WMatrixSize], Ok e)).
Proof.
  split; do 2 eexists; (split; [vm_compute; reflexivity|]); (split; [vm_compute; reflexivity|]); repeat split; vm_compute; reflexivity.
Qed.
