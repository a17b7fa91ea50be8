(** Lemmas for C148. *)
From Verif Require Import PyBase M_Data M_Flags M_Models M_Class M_Var
  L_Base S_Data L_Data L_Flags S_Var L_Models L_Var L_VarFile S_ClassOf.

Lemma slice_word d : le_int (py_slice d (Some 0) (Some 2)) = word0 d.
Proof.
  unfold word0, at_. destruct d as [|a [|b d]]; [reflexivity|change (py_slice [a] (Some 0) (Some 2)) with [a]; cbn [le_int nth]; lia|].
  rewrite py_slice_nn; [change (Z.to_nat (2 - 0)) with 2%nat; change (Z.to_nat (4 - 3)) with 1%nat; change (Z.to_nat 0) with 0%nat; change (Z.to_nat 3) with 3%nat; cbn [skipn firstn le_int nth]; lia|lia|lia|]. unfold zlen. cbn [length]. lia.
Qed.
Lemma slice_mode d : le_int (py_slice d (Some 3) (Some 4)) = at_ 3 d.
Proof.
  unfold at_. destruct d as [|a [|b [|c [|m d]]]]; [reflexivity..|].
  rewrite py_slice_nn; [change (Z.to_nat (2 - 0)) with 2%nat; change (Z.to_nat (4 - 3)) with 1%nat; change (Z.to_nat 0) with 0%nat; change (Z.to_nat 3) with 3%nat; cbn [skipn firstn le_int nth]; lia|lia|lia|]. unfold zlen. cbn [length]. lia.
Qed.

(** Decide an equivalence of concrete classes and types. *)
Ltac split_hyps := repeat match goal with H : _ /\ _ |- _ => destruct H | H : _ \/ _ |- _ => destruct H | H : False |- _ => destruct H end.
Ltac decide_asked := let c := fresh in intros c; destruct c; unfold class_asked, mono_gdb, colour_gdb; split; intros; split_hyps; try discriminate; try tauto; auto; try (exfalso; match goal with H : ~ In _ known_types |- _ => apply H; cbn; tauto end).

Lemma land_31 x : Z.land x 31 = x mod 32.
Proof. change 31 with (Z.ones 5). now rewrite Z.land_ones by lia. Qed.

Section Class.
  Variable ps : bytes -> option bool.
  Notation asked := (class_asked (fun d => is_asm ps d = true)).

  Lemma asked_known t d c : asked t d c -> c = KEntry \/ In t known_types.
  Proof.
    destruct c; unfold class_asked, mono_gdb, colour_gdb; intros; split_hyps; try (now left); right; subst t; unfold known_types; cbn; tauto.
  Qed.
  Lemma get_type_known t : ~ In t known_types -> get_type t = None.
  Proof.
    intros NI. unfold get_type, registry. cbn [assoc_cls]. unfold known_types in NI.
    repeat (match goal with |- context [?k =? t] => destruct (Z.eqb_spec k t) as [E|_]; [exfalso; apply NI; rewrite <- E; cbn; tauto|] end). reflexivity.
  Qed.

  (** The classes that the methods of lists, programs, pictures and graph databases
      choose. *)
  Lemma list_class e t w y : t = 1 /\ e_cls e = KRealList \/ t = 13 /\ e_cls e = KComplexList -> 3 <= zlen (b_data (e_data e)) ->
    coerce_list e = (w, Ok y) -> forall c, e_cls y = c <-> asked t (b_data (e_data e)) c.
  Proof.
    intros T L C. unfold coerce_list in C.
    assert (D : data e = skipn 2 (b_data (e_data e))).
    { unfold data, data_view. destruct T as [[_ ->]|[_ ->]]; unfold view_get; cbn [fst v_start v_stop]; rewrite py_slice_from by lia; reflexivity. }
    rewrite D in C. destruct (b_data (e_data e)) as [|a [|b [|x d]]]; try (vm_compute in L; congruence). cbn [skipn] in C. rewrite land_31 in C.
    assert (R : real_element (a :: b :: x :: d) <-> In (x mod 32) [0; 14; 24; 28]) by reflexivity.
    assert (X : complex_element (a :: b :: x :: d) <-> In (x mod 32) [12; 27; 29; 30; 31]) by reflexivity.
    assert (B : 0 <= x mod 32 < 32) by (apply Z.mod_pos_bound; lia). revert R X C. generalize dependent (x mod 32). intros n B R X C.
    assert (N : In n [0; 14; 24; 28] /\ e_cls y = KRealList \/ In n [12; 27; 29; 30; 31] /\ e_cls y = KComplexList \/
                ~ In n [0; 14; 24; 28] /\ ~ In n [12; 27; 29; 30; 31] /\ e_cls y = e_cls e).
    { assert (I : In n (map Z.of_nat (seq 0 32))).
      { apply in_map_iff. exists (Z.to_nat n). split; [lia|]. apply in_seq. lia. }
      cbn in I. clear B R X. repeat (destruct I as [<-|I]; [vm_compute in C; injection C as _ <-; cbn; intuition discriminate|]). destruct I. }
    assert (Y4 : In n [0; 14; 24; 28] -> In n [12; 27; 29; 30; 31] -> False).
    { clear. cbn. intros. split_hyps; subst; discriminate. }
    clear C B D L. rewrite <- R, <- X in *. clear R X.
    destruct N as [[N ->]|[[N ->]|(N1 & N2 & ->)]]; destruct T as [[-> C]|[-> C]]; try rewrite C; clear C; decide_asked.
  Qed.
  Lemma program_class e t w y : e_type e = [t] -> t = 5 \/ t = 6 -> e_cls e = KProgram \/ e_cls e = KProtectedProgram ->
    coerce_program ps e = (w, Ok y) -> forall c, e_cls y = c <-> asked t (b_data (e_data e)) c.
  Proof.
    intros T I K C. unfold coerce_program in C.
    assert (D : data e = skipn 2 (b_data (e_data e))).
    { unfold data, data_view. destruct K as [-> | ->]; unfold view_get; cbn [fst v_start v_stop]; rewrite py_slice_from by lia; reflexivity. }
    replace (is_tokenized (e_cls e)) with true in C by (destruct K as [-> | ->]; reflexivity). cbn [negb] in C.
    rewrite (type_id_byte e t T), obind_lift, D in C by (unfold is_byte; lia).
    destruct (is_asm ps (skipn 2 (b_data (e_data e)))) eqn:A; destruct I as [-> | ->];
      [change (5 =? 5) with true in C|change (6 =? 5) with false in C; change (6 =? 6) with true in C|change (5 =? 5) with true in C|change (6 =? 5) with false in C; change (6 =? 6) with true in C];
      cbv iota in C; unfold oret in C; injection C as _ <-; cbn [e_cls with_cls]; clear - A; try (assert (B : ~ is_asm ps (skipn 2 (b_data (e_data e))) = true) by congruence); decide_asked.
  Qed.
  Lemma picture_class e t w y : t = 7 /\ e_cls e = KTIPicture \/ t = 26 /\ e_cls e = KImage ->
    coerce_picture e = (w, Ok y) -> forall c, e_cls y = c <-> asked t (b_data (e_data e)) c.
  Proof.
    intros T C. unfold coerce_picture in C.
    assert (D : length_field e = word0 (b_data (e_data e))).
    { unfold length_field, integer_get, view_get, length_view. destruct T as [[_ ->]|[_ ->]]; apply slice_word. }
    rewrite D in C. clear D.
    assert (N : word0 (b_data (e_data e)) = 756 /\ e_cls y = KMonoPicture \/ word0 (b_data (e_data e)) = 21945 /\ e_cls y = KTIPicture \/
      word0 (b_data (e_data e)) = 22245 /\ e_cls y = KImage \/ ~ In (word0 (b_data (e_data e))) picture_sizes /\ e_cls y = e_cls e).
    { destruct (Z.eqb_spec (word0 (b_data (e_data e)) + 2) 758) as [E|E1]; [left; injection C as _ <-; split; [lia|reflexivity]|].
      destruct (Z.eqb_spec (word0 (b_data (e_data e)) + 2) 21947) as [E|E2]; [right; left; injection C as _ <-; split; [lia|reflexivity]|].
      destruct (Z.eqb_spec (word0 (b_data (e_data e)) + 2) 22247) as [E|E3]; [right; right; left; injection C as _ <-; split; [lia|reflexivity]|].
      right; right; right. injection C as _ <-. split; [|reflexivity]. unfold picture_sizes. cbn [In]. lia. }
    clear C. unfold picture_sizes in N.
    destruct N as [[N ->]|[[N ->]|[[N ->]|[N ->]]]]; destruct T as [[-> K]|[-> K]]; try rewrite K; clear K; cbn [In] in N; decide_asked; try (exfalso; lia);
      unfold picture_sizes in *; cbn [In] in *; first [exfalso; lia | tauto].
  Qed.
  Lemma gdb_class e w y : e_cls e = KMonoGDB ->
    coerce_mono_gdb e = (w, Ok y) -> forall c, e_cls y = c <-> asked 8 (b_data (e_data e)) c.
  Proof.
    intros K C. unfold coerce_mono_gdb, coerce_gdb, calc_data, gdb_mode_id, integer_get in C. cbn [e_cls e_data with_cls] in C. rewrite K, slice_mode in C.
    assert (L : get_color_data KMonoGDB (b_data (e_data e)) = [] <-> zlen (b_data (e_data e)) <= 61).
    { unfold get_color_data. change (num_equations KMonoGDB) with 0%nat. change (gdb_offset KMonoGDB + Z.of_nat (num_styles KMonoGDB)) with 61. cbn [skip_equations].
      rewrite py_slice_from by lia. change (Z.to_nat 61) with 61%nat. unfold zlen. split; intros E.
      - apply (f_equal (@length Z)) in E. rewrite skipn_length in E. cbn [length] in E. lia.
      - apply skipn_ge. lia. }
    set (m := at_ 3 (b_data (e_data e))) in *. unfold graph_modes.
    assert (N : (zlen (b_data (e_data e)) <= 61 /\ (m = 16 /\ e_cls y = KMonoFunc \/ m = 64 /\ e_cls y = KMonoParam \/ m = 32 /\ e_cls y = KMonoPolar \/ m = 128 /\ e_cls y = KMonoSeq \/ ~ In m graph_modes /\ e_cls y = KMonoGDB)) \/
                (61 < zlen (b_data (e_data e)) /\ (m = 16 /\ e_cls y = KFunc \/ m = 64 /\ e_cls y = KParam \/ m = 32 /\ e_cls y = KPolar \/ m = 128 /\ e_cls y = KSeq \/ ~ In m graph_modes /\ e_cls y = KGDB))).
    { unfold graph_modes. cbn [In]. destruct (get_color_data KMonoGDB (b_data (e_data e))) as [|b l]; [left; split; [now apply L|]|right; split; [destruct (Z.le_gt_cases (zlen (b_data (e_data e))) 61) as [Q|Q]; [apply L in Q; discriminate|lia]|]]; clear L;
      (destruct (Z.eqb_spec m 16) as [E1|E1]; [left; injection C as _ <-; split; [exact E1|reflexivity]|]);
      (destruct (Z.eqb_spec m 64) as [E2|E2]; [right; left; injection C as _ <-; split; [exact E2|reflexivity]|]);
      (destruct (Z.eqb_spec m 32) as [E3|E3]; [right; right; left; injection C as _ <-; split; [exact E3|reflexivity]|]);
      (destruct (Z.eqb_spec m 128) as [E4|E4]; [right; right; right; left; injection C as _ <-; split; [exact E4|reflexivity]|]);
      right; right; right; right; injection C as _ <-; (split; [lia|try exact K; reflexivity]). }
    clear C L K. revert N. unfold m. clear m. intros N c.
    destruct N as [[L [[N ->]|[[N ->]|[[N ->]|[[N ->]|[N ->]]]]]]|[L [[N ->]|[[N ->]|[[N ->]|[[N ->]|[N ->]]]]]]]; unfold graph_modes in N; cbn [In] in N;
      revert c; decide_asked; try (exfalso; lia); unfold graph_modes in *; cbn [In] in *; first [exfalso; lia | tauto].
  Qed.

  Lemma coerce_class e t w y : e_cls e = KEntry -> e_type e = [t] -> is_byte t -> consistent t (b_data (e_data e)) ->
    coerce ps e = (w, Ok y) -> forall c, e_cls y = c <-> asked t (b_data (e_data e)) c.
  Proof.
    intros K T Bt Cn C. unfold coerce in C. rewrite K in C. unfold coerce_base in C. rewrite (type_id_byte e t T Bt), obind_lift in C.
    destruct (in_dec Z.eq_dec t known_types) as [I|NI].
    2:{ rewrite (get_type_known t NI) in C. cbn [obind owarn oret app] in C. injection C as _ <-. rewrite K.
        intros c. split; [intros <-; exact NI|]. intros A. apply asked_known in A as [->|A]; [reflexivity|contradiction]. }
    unfold known_types in I. cbn in I.
    repeat (destruct I as [<-|I]; [idtac|]); [..|destruct I].
    all: match type of C with context [get_type ?t] => let k := eval vm_compute in (get_type t) in change (get_type t) with k in C end; cbv iota in C; unfold coerce_own in C; cbn [e_cls with_cls] in C;
      repeat match type of C with context [issubclass ?a ?b] => let k := eval vm_compute in (issubclass a b) in change (issubclass a b) with k in C end; cbv iota in C.
    all: try (unfold oret in C; injection C as _ <-; cbn [e_cls with_cls]; decide_asked).
    all: repeat match type of C with context [cls_eqb ?a ?b] => let k := eval vm_compute in (cls_eqb a b) in change (cls_eqb a b) with k in C end; cbv iota in C.
    all: try (refine (list_class (with_cls e _) _ w y _ _ C); [cbn [e_cls with_cls]; tauto|apply (proj1 (proj2 Cn)); cbn; tauto]).
    all: try (refine (program_class (with_cls e _) _ w y T _ _ C); cbn [e_cls with_cls]; tauto).
    all: try (refine (picture_class (with_cls e _) _ w y _ C); cbn [e_cls with_cls]; tauto).
    all: try (refine (gdb_class (with_cls e _) w y _ C); reflexivity).
    all: try (exfalso; exact (proj1 Cn eq_refl)).
    all: destruct Cn as (_ & _ & Cn); destruct Cn as (b & Nb & Mb); [cbn; tauto|]; unfold coerce_complex in C; change 9 with (Z.of_nat 9) in C; cbn [e_data with_cls] in C;
      rewrite (get_bits_at_nth _ _ _ Nb), Mb in C; cbn [olift obind] in C;
      match type of C with context [set_type_id ?x ?t] => destruct (set_type_same x t T Bt) as (w2 & S); rewrite S in C; cbn [obind] in C; rewrite (type_id_byte x t T Bt) in C end;
      unfold olift in C; cbn [obind] in C;
      match type of C with context [get_type ?t] => let k := eval vm_compute in (get_type t) in change (get_type t) with k in C end; unfold oret in C; injection C as _ <-; cbn [e_cls with_cls]; clear; decide_asked.
  Qed.

  (** The class of an entry restored from its bytes. *)
  Lemma restored_class e w x : restorable e -> entry_load ps KEntry (image_of e) = (w, Ok x) ->
    exists t, e_type e = [t] /\ forall c, e_cls x = c <-> asked t (b_data (e_data e)) c.
  Proof.
    intros (St & NA & SD) H. rewrite <- (app_nil_r (image_of e)) in H. destruct SD as (t & T & Cn).
    destruct St as [M (t' & T' & Bt) N (v & V & Bv) (a & A & Ba) NF D Mu]. assert (t' = t) by congruence. subst t'. exists t. split; [exact T|].
    assert (F : exists w0, finish ps (Entry KEntry (e_meta e) [t] (e_name e) [v] [a] (e_data e)) = (w0, Ok x)).
    { assert (DD : Buf true (b_data (e_data e)) = e_data e) by (destruct (e_data e); cbn in *; congruence).
      unfold image_of in H. rewrite T in H. destruct M as [M|M]; rewrite M in H |- *.
      - destruct (NF M) as [NV NAr]. rewrite NV in V. rewrite NAr in A. injection V as <-. injection A as <-.
        change (leqb (le16 11) [13; 0]) with false in H. cbv iota in H. rewrite load_image_11 in H by auto.
        apply obind_ok in H as (? & ? & ? & _ & H & _). rewrite DD in H. eauto.
      - change (leqb (le16 13) [13; 0]) with true in H. cbv iota in H. rewrite V, A in H. change ([v] ++ [a]) with [v; a] in H.
        rewrite load_image_13 in H; auto.
        + apply obind_ok in H as (? & ? & ? & _ & H & _). apply obind_ok in H as (? & ? & ? & _ & H & _). rewrite DD in H. eauto.
        + intros Q. apply NA. split; auto. now rewrite V, A. }
    destruct F as (w0 & F). unfold finish in F. apply obind_ok in F as (w1 & y & ? & C & F & _).
    apply obind_ok in F as (? & ? & ? & _ & F & _). apply obind_ok in F as (? & ? & ? & _ & F & _).
    apply obind_ok in F as (? & ? & ? & _ & F & _). injection F as _ <-.
    exact (coerce_class (Entry KEntry (e_meta e) [t] (e_name e) [v] [a] (e_data e)) t w1 y eq_refl eq_refl Bt Cn C).
  Qed.
End Class.

(** The entry loop of a file, with the class of each entry (as [load_many] of
    L_VarFile). *)
Section Load.
  Variable name_set : cls -> str -> out bytes.
  Variable get_version : entry -> option bytes -> out Z.
  Variable ps : bytes -> option bool.
  Notation asked := (class_asked (fun d => is_asm ps d = true)).

  Lemma load_one_class e v rest left fuel w0 e0 s : restorable e ->
    entry_default name_set get_version ps = (w0, Ok e0) -> quietw w0 ->
    st_rest s = image_of e ++ rest -> 0 < left ->
    exists w e' s', (exists wl, entry_load ps KEntry (image_of e) = (wl, Ok e')) /\ quietw w /\ st_rest s' = rest /\ st_buf s' = st_buf s /\
      load_entries name_set get_version ps (S fuel) left s v =
      do _ := (w, Ok tt) in
      load_entries name_set get_version ps fuel (left - zlen (image_of e)) s'
        (Var (v_header v) (v_entries v ++ [e']) (v_model v)).
  Proof.
    intros (St & NA & SD) D Q R L.
    destruct (load_storable ps KEntry e [] St NA SD) as (we & e' & EL & SR & QW). rewrite app_nil_r in EL.
    assert (QE : quietw we).
    { destruct (st_type e St) as (t & T & _). now apply (QW t T). }
    set (wc := match v_entries v with [] => [] | x :: _ => if negb (meta_length e0 =? meta_length x) then [WConflict] else [] end).
    assert (QC : quietw wc).
    { unfold wc. destruct (v_entries v); [apply quietw_nil|]. destruct (negb _); [intros x [<-|[]]; reflexivity|apply quietw_nil]. }
    exists (w0 ++ wc ++ we), e', (snd (st_read (Z.to_nat (zlen (image_of e))) s)).
    split; [now exists we|]. split; [auto using quietw_app|].
    rewrite st_read_rest, R, to_nat_zlen, skipn_app_exact by reflexivity.
    split; [reflexivity|]. split; [reflexivity|].
    cbn [load_entries]. replace (left <=? 0) with false by lia.
    unfold add_entry. rewrite D.
    assert (RD : fst (st_read (length (image_of e)) s) = image_of e).
    { unfold st_read. rewrite R. cbn [fst]. now apply firstn_app_exact. }
    assert (X : forall (f : var -> out (Z * stream * var)),
      obind (obind (w0, Ok e0) (fun x => do _ := match v_entries v with [] => oret tt | e1 :: _ => owarn_if (negb (meta_length x =? meta_length e1)) WConflict end in
               oret (Var (v_header v) (v_entries v ++ [x]) (v_model v)))) f =
      obind (w0 ++ wc, Ok tt) (fun _ => f (Var (v_header v) (v_entries v ++ [e0]) (v_model v)))).
    { intros f. unfold wc. destruct (v_entries v) as [|e1 es]; cbn [obind oret owarn_if app]; destruct (f _); cbn; now rewrite ?app_nil_r. }
    rewrite X. clear X. cbn [v_header v_entries v_model].
    rewrite (next_len_image e s rest St R). rewrite obind_ret_l, to_nat_zlen.
    destruct (st_read (length (image_of e)) s) as [d s'] eqn:Es. cbn [fst snd] in *. subst d.
    rewrite EL, Z.eqb_refl. cbn [negb]. rewrite removelast_snoc.
    cbn [obind]. unfold owarn_if. cbn [obind app].
    destruct (load_entries _ _ _ _ _ _ _) as [wr rr]. now rewrite <- !app_assoc.
  Qed.

  Lemma load_many_class es : forall v rest fuel w0 e0 s, Forall restorable es ->
    entry_default name_set get_version ps = (w0, Ok e0) -> quietw w0 ->
    st_rest s = concat (map image_of es) ++ rest -> (length es <= fuel)%nat ->
    exists w es' s', Forall2 (fun e' e => exists wl, entry_load ps KEntry (image_of e) = (wl, Ok e')) es' es /\ quietw w /\ st_rest s' = rest /\
      load_entries name_set get_version ps fuel (zlen (concat (map image_of es))) s v =
      (w, Ok (0, s', Var (v_header v) (v_entries v ++ es') (v_model v))).
  Proof.
    induction es as [|e es IH]; intros v rest fuel w0 e0 s G D Q R F.
    - exists [], [], s. split; [constructor|]. split; [apply quietw_nil|]. split; [exact R|].
      rewrite app_nil_r. destruct v; destruct fuel; reflexivity.
    - inversion G as [|? ? G1 G2]; subst. destruct fuel as [|fuel]; [simpl in F; lia|].
      cbn [map concat] in *. rewrite <- app_assoc in R.
      assert (P : 0 < zlen (image_of e)).
      { destruct G1 as (St & _ & _). rewrite <- (entry_len_image e St).
        destruct (image_head e St) as (m & r & Hm & _ & ->). pose proof (zlen_nonneg (b_data (e_data e))). lia. }
      pose proof (zlen_nonneg (concat (map image_of es))).
      destruct (load_one_class e v (concat (map image_of es) ++ rest) (zlen (image_of e ++ concat (map image_of es))) fuel w0 e0 s G1 D Q R)
        as (w & e' & s' & SR & QW & R' & _ & E); [rewrite zlen_app; lia|].
      rewrite E. rewrite zlen_app. replace (zlen (image_of e) + zlen (concat (map image_of es)) - zlen (image_of e)) with (zlen (concat (map image_of es))) by lia.
      destruct (IH (Var (v_header v) (v_entries v ++ [e']) (v_model v)) rest fuel w0 e0 s' G2 D Q R') as (w2 & es' & s2 & S2 & Q2 & R2 & E2); [simpl in F; lia|].
      rewrite E2. cbn [obind v_header v_entries v_model]. exists (w ++ w2), (e' :: es'), s2.
      split; [now constructor|]. split; [now apply quietw_app|]. split; auto.
      now rewrite <- app_assoc.
  Qed.


  Lemma var_load_class order set_order v0 h es c1 c2 rest w0 e0 w v' :
    header_wf h -> Forall restorable es -> zlen (concat (map image_of es)) < 65536 ->
    entry_default name_set get_version ps = (w0, Ok e0) -> quietw w0 ->
    var_load name_set get_version ps order set_order v0
      (header_bytes h ++ le16 (zlen (concat (map image_of es))) ++ concat (map image_of es) ++ [c1; c2] ++ rest) = (w, Ok v') ->
    Forall2 (fun e' e => exists t, e_type e = [t] /\ forall c, e_cls e' = c <-> asked t (b_data (e_data e)) c) (v_entries v') es.
  Proof.
    intros HW G L D Q H. pose proof (zlen_nonneg (concat (map image_of es))) as P.
    unfold var_load in H.
    set (body := concat (map image_of es)) in *.
    assert (LH : length (header_bytes h) = 53%nat).
    { destruct HW as (A & B & (p & C & _) & E). unfold header_bytes. rewrite !app_length, A, B, C, E. reflexivity. }
    destruct (st_read_app (header_bytes h) (le16 (zlen body) ++ body ++ [c1; c2] ++ rest) 53 0 (header_bytes h ++ le16 (zlen body) ++ body ++ [c1; c2] ++ rest) LH eq_refl)
      as (s1 & E1 & R1 & B1). rewrite E1 in H.
    destruct s1 as [bf p1]. cbn [st_buf] in B1. subst bf. unfold st_rest in R1. cbn [st_buf st_pos] in R1.
    destruct (st_read_app (le16 (zlen body)) (body ++ [c1; c2] ++ rest) 2 p1 _ eq_refl R1) as (s2 & E2 & R2 & B2). rewrite E2 in H.
    rewrite le_int_le16 in H by lia.
    assert (SE : Forall storable es) by (eapply Forall_impl; [|exact G]; intros ? (?&_); auto).
    destruct (load_many_class es (Var (header_load (header_bytes h)) [] (v_model v0)) ([c1; c2] ++ rest) (Z.to_nat (zlen body)) w0 e0 s2 G D Q R2)
      as (wl & es' & s3 & SR & QW & R3 & E3); [now apply images_count|].
    fold body in E3. rewrite E3 in H. clear E3. apply obind_ok in H as (? & x & ? & X & H & _). injection X as _ <-. 
    apply obind_ok in H as (? & ? & ? & _ & H & _). destruct (st_read 2 s3) as [c s4].
    apply obind_ok in H as (? & ? & ? & _ & H & _). apply obind_ok in H as (? & ? & ? & _ & H & _). apply obind_ok in H as (? & ? & ? & _ & H & _).
    injection H as _ <-. cbn [v_entries app]. clear - G SR. induction SR as [|a b la lb (wl & E) SR IH]; [constructor|]. inversion G; subst.
    constructor; [now apply (restored_class ps b wl a)|auto].
  Qed.
End Load.
