(** C156: pictures and graph databases, after saving the file and opening it again. *)
From Verif Require Import L_Base M_Data M_Flags M_Models M_Class M_Var M_List M_Pic M_Gdb
  S_Data L_Data L_Flags S_Var L_Models P_Models L_Var L_VarFile P_Var S_Pic L_Pic P_Pic S_Gdb L_Gdb P_Gdb L_Pil S_ClassOf L_ClassOf P_ClassOf P_End.

Lemma pic_kept e d w e' : In (e_cls e) [KMonoPicture; KTIPicture; KImage] -> set_data pic_version e d = (w, Ok e') -> e_type e' = e_type e /\ e_cls e' = e_cls e.
Proof.
  intros I H.
  assert (DV : snd (data_view (e_cls e)) = DSized) by (destruct I as [<-|[<-|[<-|[]]]]; reflexivity).
  unfold set_data in H. destruct (data_view (e_cls e)) as (v, k). cbn [snd] in DV. subst k.
  apply obind_ok in H as (? & e1 & ? & E1 & H & _). apply obind_ok in H as (? & e2 & ? & E2 & H & _).
  apply obind_ok in H as (? & ? & ? & _ & H & _). injection H as _ <-. cbn [e_type e_cls with_data].
  unfold set_length_field in E1. apply obind_ok in E1 as (? & ? & ? & _ & E1 & _). injection E1 as _ <-.
  apply obind_ok in E2 as (? & ? & ? & _ & E2 & _). unfold set_version in E2. do 2 (apply obind_ok in E2 as (? & ? & ? & _ & E2 & _)). injection E2 as _ <-. split; reflexivity.
Qed.
Lemma pic_word e : In (e_cls e) [KMonoPicture; KTIPicture; KImage] -> length_field e = word0 (b_data (e_data e)).
Proof.
  intros I. unfold length_field, integer_get, view_get, length_view. destruct I as [<-|[<-|[<-|[]]]]; apply slice_word.
Qed.
(** The type bytes of the picture classes, and the length words that other classes
    have as their own. *)
Definition picture_types : list (cls * Z) := [(KMonoPicture, 7); (KTIPicture, 7); (KImage, 26)].
Definition own_length (c : cls) (n : Z) : Prop :=
  match c with KMonoPicture => n = 756 | KTIPicture => n <> 756 /\ n <> 22245 | _ => n <> 756 /\ n <> 21945 end.
Lemma pic_asked ps e t : In (e_cls e, t) picture_types -> e_type e = [t] -> (own_class ps e <-> own_length (e_cls e) (length_field e)).
Proof.
  intros I T. assert (I' : In (e_cls e) [KMonoPicture; KTIPicture; KImage]) by (apply (in_map fst) in I; exact I).
  rewrite (pic_word e I'). unfold own_class. rewrite T. set (n := word0 (b_data (e_data e))).
  assert (X : (exists t', [t] = [t'] /\ asked ps t' (b_data (e_data e)) (e_cls e)) <-> asked ps t (b_data (e_data e)) (e_cls e)).
  { split; [intros (t' & K & A); injection K as <-; exact A|intros A; now exists t]. }
  rewrite X. clear X.
  destruct I as [K|[K|[K|[]]]]; injection K as K <-; rewrite <- K; unfold class_asked, own_length, picture_sizes; fold n; cbn [In]; lia.
Qed.
Lemma pic_described e t : In (e_cls e, t) picture_types -> e_type e = [t] -> self_describing e.
Proof.
  intros I T. exists t. split; [exact T|]. destruct I as [K|[K|[K|[]]]]; injection K as _ <-; (split; [lia|]; split; intros J; cbn in J; lia).
Qed.

Section File.
  Variable ns : cls -> str -> out bytes.
  Variable gv : entry -> option bytes -> out Z.
  Variable ps : bytes -> option bool.
  Variable order : model -> Z.
  Variable so : list model -> list model.
  Variable w0 : list warning.
  Variable e0 : entry.
  Hypothesis DF : entry_default ns gv ps = (w0, Ok e0).
  Hypothesis QD : no_structural w0.
  Notation reopened := (reopened ns gv ps order so).

Lemma among_iff h pre e post : fits h (pre ++ e :: post) -> Forall (sound ps) pre -> Forall (sound ps) post -> self_describing e ->
  (reopened h (pre ++ e :: post) (pre ++ e :: post) <-> own_class ps e).
Proof.
  intros FT G1 G2 SD. split.
  - intros R. destruct FT as (HW & S & A & EL). assert (AR : Forall restorable (pre ++ e :: post)).
    { rewrite Forall_forall in *. intros y I. split; [auto|]. split; [auto|]. apply in_app_or in I as [I|[<-|I]]; [now apply G1|exact SD|now apply G2]. }
    apply (proj1 (C155_same_iff ns gv ps order so w0 e0 DF QD h _ HW AR EL)) in R. apply Forall_app in R as (_ & R). now inversion R.
  - intros O. apply (sound_reopens ns gv ps order so w0 e0 DF QD); [exact FT|]. apply among_sound; [assumption..|]. now split.
Qed.
(** A picture comes back as itself exactly if its length word is not that of another class. *)
Theorem C156_picture_iff : forall h pre e post t, Forall (sound ps) pre -> Forall (sound ps) post -> In (e_cls e, t) picture_types -> e_type e = [t] ->
  fits h (pre ++ e :: post) ->
  (reopened h (pre ++ e :: post) (pre ++ e :: post) <-> own_length (e_cls e) (length_field e)).
Proof.
  intros h pre e post t G1 G2 I T FT. rewrite (among_iff h pre e post FT G1 G2 (pic_described e t I T)). now apply pic_asked with t.
Qed.
(** Pixels loaded into a monochrome picture. *)
Theorem C156_mono : forall h pre e post arr w e', Forall (sound ps) pre -> Forall (sound ps) post -> e_cls e = KMonoPicture -> e_type e = [7] -> writable 2 e ->
  grid 63 96 arr -> mono_load e arr = (w, Ok e') -> fits h (pre ++ e' :: post) ->
  reopened h (pre ++ e' :: post) (pre ++ e' :: post) /\ mono_array (data e') = Ok (map (map (fun p => if p =? 0 then 0 else 255)) arr).
Proof.
  intros h pre e post arr w e' G1 G2 C T W G L FT. destruct (C54_load_array e arr C W G) as (x & L' & LF & _ & A).
  rewrite L in L'. injection L' as _ <-. split; [|exact A].
  unfold mono_load in L. apply obind_ok in L as (? & d & ? & _ & L & _). apply pic_kept in L as (T' & C'); [|rewrite C; now left].
  apply (C156_picture_iff h pre e' post 7); [assumption..|rewrite C', C; now left|congruence|exact FT|]. rewrite C', C. exact LF.
Qed.
(** Colours loaded into a colour picture. *)
Theorem C156_colour : forall h pre e post arr w e', Forall (sound ps) pre -> Forall (sound ps) post -> e_cls e = KTIPicture -> e_type e = [7] -> writable 2 e ->
  grid 165 266 arr -> pic_load e arr = (w, Ok e') -> fits h (pre ++ e' :: post) ->
  reopened h (pre ++ e' :: post) (pre ++ e' :: post) /\
  exists arr', pic_array (data e') = Ok arr' /\ Forall2 (Forall2 nearest_to) arr arr' /\ (Forall (Forall (fun c => In c palette)) arr -> arr' = arr).
Proof.
  intros h pre e post arr w e' G1 G2 C T W G L FT. destruct (C55_load_array e arr C W G) as (w' & x & arr' & L' & LF & _ & A & N & P).
  rewrite L in L'. injection L' as _ <-. split; [|exists arr'; split; [exact A|]; split; [exact N|]; intros Q; now apply P].
  unfold pic_load in L. apply obind_ok in L as (? & d & ? & _ & L & _). apply pic_kept in L as (T' & C'); [|rewrite C; right; now left].
  apply (C156_picture_iff h pre e' post 7); [assumption..|rewrite C', C; right; now left|congruence|exact FT|]. rewrite C', C, LF. cbn. lia.
Qed.
(** Colours loaded into an image, whose length word is one too small (C57). *)
Theorem C156_image : forall h pre e post arr w e', Forall (sound ps) pre -> Forall (sound ps) post -> e_cls e = KImage -> e_type e = [26] -> writable 3 e ->
  grid 83 133 arr -> Forall (Forall rgb_ok) arr -> image_load e arr = (w, Ok e') -> fits h (pre ++ e' :: post) ->
  reopened h (pre ++ e' :: post) (pre ++ e' :: post) /\ exists arr', image_array (data e') = Ok arr' /\ Forall2 (Forall2 close) arr arr'.
Proof.
  intros h pre e post arr w e' G1 G2 C T W G O L FT. destruct (C56_load_array e arr C W G O) as (x & arr' & L' & _ & A & N).
  rewrite L in L'. injection L' as _ <-. split; [|exists arr'; now split].
  destruct (image_load_spec e arr C W G O) as (m & d & L' & _). rewrite L in L'. injection L' as _ E.
  assert (LF : length_field e' = 22244) by (rewrite E; apply length_after; [cbn; rewrite C; reflexivity|lia]).
  unfold image_load in L. apply obind_ok in L as (? & d' & ? & _ & L & _). apply pic_kept in L as (T' & C'); [|rewrite C; right; right; now left].
  apply (C156_picture_iff h pre e' post 26); [assumption..|rewrite C', C; right; right; now left|congruence|exact FT|]. rewrite C', C, LF. cbn. lia.
Qed.

(** Entries that come back with other classes. *)
Theorem C156_reclassed : forall h es es', fits h es -> Forall self_describing es ->
  (reopened h es es' <-> Forall2 (fun e' e => same_raw e' e /\ own_class ps e') es' es).
Proof.
  intros h es es' (HW & S & A & L) SD.
  assert (G : Forall restorable es) by (rewrite Forall_forall in *; intros e I; split; [|split]; auto).
  pose proof (C14_var_bytes (Var h es None) S L) as B.
  destruct (C14_var_roundtrip ns gv ps order so None (Var h es None) _ w0 e0 HW G L DF QD eq_refl B) as (w & v' & LD & H1 & H2 & F & NS).
  pose proof (C148_var ns gv ps order so None (Var h es None) _ w0 e0 w v' HW G L DF QD B LD) as C. cbn [v_header v_entries] in *.
  replace (var_load ns gv ps order so (Var h [] None)) with (var_load ns gv ps order so (Var h0 [] None)) in LD by reflexivity.
  destruct v' as [h' es0 m']. cbn [v_header v_entries v_model] in *. subst h' m'.
  assert (K : Forall2 (fun e' e => same_raw e' e /\ own_class ps e') es0 es).
  { clear - F C. induction F as [|x e l l' SR F IH]; inversion C as [|? ? ? ? (t & T & K) C']; subst; constructor; [|now apply IH].
    split; [exact SR|]. destruct SR as (_ & S2 & _ & _ & _ & S6). exists t. split; [congruence|]. rewrite S6. now apply K. }
  split.
  - intros (b & w' & B' & LD' & _). rewrite B in B'. injection B' as <-. rewrite LD in LD'. injection LD' as _ <-. exact K.
  - intros Q. assert (es' = es0) as ->; [|eexists; exists w; split; [exact B|]; split; [exact LD|exact NS]].
    clear - K Q C. revert es' Q. induction K as [|x e l l' (SR & _) K IH]; intros es' Q; inversion Q as [|y ? m ? (SR' & (t & T & O)) Q']; subst; [reflexivity|].
    inversion C as [|? ? ? ? (t' & T' & K') C']; subst. f_equal; [|now apply IH].
    destruct SR as (A1 & A2 & A3 & A4 & A5 & A6), SR' as (B1 & B2 & B3 & B4 & B5 & B6).
    assert (t' = t) by congruence. subst t'. rewrite B6 in O. apply K' in O. destruct x, y; cbn in *; congruence.
Qed.
(** A colour graph database comes back as itself, if its mode byte is that of its class. *)
Theorem C156_gdb : forall h pre e post g, Forall (sound ps) pre -> Forall (sound ps) post -> colour (e_cls e) = true -> e_type e = [8] ->
  gdb_ok (e_cls e) g -> e_data e = Buf true (gdb_bytes g) -> fits h (pre ++ e :: post) ->
  (reopened h (pre ++ e :: post) (pre ++ e :: post) <-> nth 3 (g_head g) 0 = mode_value (e_cls e)).
Proof.
  intros h pre e post g G1 G2 C T OK D FT.
  assert (SD : self_describing e). { exists 8. split; [exact T|]. split; [lia|]. split; intros J; cbn in J; lia. }
  rewrite (among_iff h pre e post FT G1 G2 SD). destruct OK as (p & s & r & S & LH & _).
  assert (L : 61 < zlen (gdb_bytes g)).
  { unfold gdb_bytes, zlen. rewrite app_length, LH. destruct (e_cls e); try discriminate C; injection S as <- _ _; lia. }
  assert (M : at_ 3 (gdb_bytes g) = nth 3 (g_head g) 0). { unfold at_, gdb_bytes. rewrite app_nth1; [reflexivity|lia]. }
  unfold own_class. rewrite T, D. cbn [b_data].
  split; [intros (t & K & A); injection K as <-|intros N; exists 8; split; [reflexivity|]];
    unfold class_asked, colour_gdb in *; destruct (e_cls e); try discriminate C; cbn [mode_value] in *; rewrite M in *; (lia || tauto).
Qed.
(** A monochrome one never does: it comes back as a colour one with the same bytes. *)
Theorem C156_gdb_mono_refuted : forall h pre e post c g, Forall (sound ps) pre -> Forall (sound ps) post -> colour c = true -> e_cls e = mono_of c -> e_type e = [8] ->
  gdb_ok (e_cls e) g -> g_tail g = None -> nth 3 (g_head g) 0 = mode_value c -> e_data e = Buf true (gdb_bytes g) -> fits h (pre ++ e :: post) ->
  reopened h (pre ++ e :: post) (pre ++ with_cls e c :: post) /\ ~ reopened h (pre ++ e :: post) (pre ++ e :: post).
Proof.
  intros h pre e post c g G1 G2 C CE T OK _ MV D FT.
  assert (SD : self_describing e). { exists 8. split; [exact T|]. split; [lia|]. split; intros J; cbn in J; lia. }
  destruct OK as (p & s & r & S & LH & _).
  assert (L : 61 < zlen (gdb_bytes g)).
  { rewrite CE in S. unfold gdb_bytes, zlen. rewrite app_length, LH. destruct c; try discriminate C; injection S as <- _ _; lia. }
  assert (M : at_ 3 (gdb_bytes g) = nth 3 (g_head g) 0). { unfold at_, gdb_bytes. rewrite app_nth1; [reflexivity|lia]. }
  split.
  - apply C156_reclassed; [exact FT| |].
    + apply Forall_app. split; [|constructor; [exact SD|]]; (eapply Forall_impl; [|eassumption]); intros ? (? & _); assumption.
    + assert (X : forall l, Forall (sound ps) l -> Forall2 (fun e' e => same_raw e' e /\ own_class ps e') l l).
      { induction 1 as [|x l (_ & O) _ IH]; constructor; [|exact IH]. split; [unfold same_raw; tauto|exact O]. }
      apply Forall2_app; [now apply X|]. constructor; [|now apply X]. split; [unfold same_raw; cbn; tauto|].
      exists 8. split; [exact T|]. cbn [e_cls e_data with_cls]. rewrite D. cbn [b_data].
      unfold class_asked, colour_gdb. destruct c; try discriminate C; cbn [mode_value] in MV; rewrite M, MV; auto.
  - rewrite (among_iff h pre e post FT G1 G2 SD). unfold own_class. rewrite T, D, CE. intros (t & K & A). injection K as <-. cbn [b_data] in A.
    unfold class_asked, mono_gdb in A. destruct c; try discriminate C; cbn [mono_of] in A; lia.
Qed.
End File.
Print Assumptions C156_picture_iff.
Print Assumptions C156_mono.
Print Assumptions C156_colour.
Print Assumptions C156_image.
Print Assumptions C156_reclassed.
Print Assumptions C156_gdb.
Print Assumptions C156_gdb_mono_refuted.
(** A picture and two graph databases in one file. *)
Definition stripes : list (list Z) := repeat (repeat 0 40 ++ repeat 255 56) 63.
Example C156_example : exists p', writable 2 mono0 /\ grid 63 96 stripes /\ mono_load mono0 stripes = ([], Ok p') /\ length_field p' = 756 /\
  gdb_ok KFunc colour_ex /\ nth 3 (g_head colour_ex) 0 = mode_value KFunc /\ Forall (sound ps0) [p'; gdb_entry KFunc (gdb_bytes colour_ex)] /\
  reopened ns0 gv0 ps0 model_index so0 some_header [p'; gdb_entry KFunc (gdb_bytes colour_ex)] [p'; gdb_entry KFunc (gdb_bytes colour_ex)] /\
  reopened ns0 gv0 ps0 model_index so0 some_header [p'; gdb_entry KMonoFunc (gdb_bytes (func_ex None))] [p'; gdb_entry KFunc (gdb_bytes (func_ex None))].
Proof.
  eexists. split; [|split; [|split; [vm_compute; reflexivity|]]].
  - split; [reflexivity|]. split; [exists 0; split; [reflexivity|unfold is_byte; lia]|]. split; [reflexivity|]. vm_compute. repeat constructor.
  - split; [reflexivity|]. apply Forall_forall. intros r I. apply repeat_spec in I. now subst r.
  - split; [vm_compute; reflexivity|]. split; [apply func_ex_ok; [now left|repeat split; reflexivity]|]. split; [reflexivity|]. split.
    + repeat apply Forall_cons; [..|apply Forall_nil].
      * split; exists 7; (split; [reflexivity|]); [split; [lia|]; split; intros I; cbn in I; lia|]. split; [now left|vm_compute; reflexivity].
      * split; exists 8; (split; [reflexivity|]); [split; [lia|]; split; intros I; cbn in I; lia|]. split; [split; [reflexivity|vm_compute; reflexivity]|vm_compute; reflexivity].
    + split; do 2 eexists; (split; [vm_compute; reflexivity|]); (split; [vm_compute; reflexivity|]); intros x I; cbn in I; intuition (subst; reflexivity).
Qed.
(** A monochrome picture given one row too few is saved, and comes back as a colour picture. *)
Theorem C156_rows_refuted : exists p x, mono_load mono0 (repeat (repeat 0 96) 62) = ([], Ok p) /\ e_cls p = KMonoPicture /\ e_cls x = KTIPicture /\
  e_data x = e_data p /\ reopened ns0 gv0 ps0 model_index so0 some_header [p] [x] /\ pic_array (data x) = Err IndexError.
Proof.
  do 2 eexists. split; [vm_compute; reflexivity|]. split; [reflexivity|].
  assert (Q : forall p, e_cls (with_cls p KTIPicture) = KTIPicture) by reflexivity. split; [apply Q|]. split; [reflexivity|]. split; [|vm_compute; reflexivity].
  do 2 eexists; (split; [vm_compute; reflexivity|]); (split; [vm_compute; reflexivity|]); intros x I; cbn in I; intuition (subst; reflexivity).
Qed.
Print Assumptions C156_rows_refuted.
