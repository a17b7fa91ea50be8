(** C91-C93: selecting, opening, comparing, copying, joining and naming whole
    files and objects. *)
From Verif Require Import PyBase M_Data M_Flags M_Models M_Class M_Var M_Real M_File
  L_Base S_Data L_Data L_Flags S_Var L_Models P_Models L_Var L_VarFile P_Var S_File.

(** ** Lemmas *)
Lemma st_seek_rest n s a b : (length a = n)%nat -> st_rest s = a ++ b -> st_rest (st_seek (Z.of_nat n) s) = b.
Proof.
  intros L R. unfold st_rest, st_seek in *. cbn [st_buf st_pos].
  replace (Z.to_nat (Z.max 0 (Z.of_nat (st_pos s) + Z.of_nat n))) with (st_pos s + n)%nat by lia.
  assert (G : forall p q (l : bytes), skipn (p + q) l = skipn q (skipn p l)).
  { induction p; intros q l; [reflexivity|]. destruct l; [now rewrite !skipn_nil|]. apply IHp. }
  rewrite G, R. now apply skipn_app_exact.
Qed.

Lemma entry_at_image es : forall k e s rest, Forall storable es -> nth_error es k = Some e ->
  st_rest s = concat (map image_of es) ++ rest ->
  exists s', entry_at k s = ([], Ok (image_of e, s')).
Proof.
  induction es as [|x es IH]; intros k e s rest F N R; [destruct k; discriminate N|].
  inversion F as [|? ? Sx Fs]; subst. cbn [map concat] in R. rewrite <- app_assoc in R.
  destruct k as [|k]; cbn [nth_error] in N.
  - injection N as <-. cbn [entry_at]. rewrite (next_len_image x s _ Sx R), obind_ret_l, to_nat_zlen.
    unfold oret. unfold st_read. rewrite R, firstn_app_exact by reflexivity. eauto.
  - cbn [entry_at]. rewrite (next_len_image x s _ Sx R), obind_ret_l.
    apply IH with (rest := rest); auto. change (zlen (image_of x)) with (Z.of_nat (length (image_of x))).
    eapply st_seek_rest; [reflexivity|]. exact R.
Qed.

Lemma file_start hdr es : length hdr = 53%nat ->
  exists s, st_read 53 (Stream (file_image hdr (map image_of es)) 0) = (hdr, s) /\
    st_rest (st_seek 2 s) = concat (map image_of es) ++ le16 (fold_right Z.add 0 (concat (map image_of es)) mod 65536) /\
    peekable (file_image hdr (map image_of es)) = oret tt.
Proof.
  intros L. set (f := file_image hdr (map image_of es)).
  destruct (st_read_app hdr (skipn 53 f) 53 0 f L) as (s & E & R & B).
  { change (skipn 0 f) with f. unfold f, file_image. now rewrite skipn_app_exact by auto. }
  exists s. split; [exact E|]. split.
  - change 2 with (Z.of_nat 2). eapply (st_seek_rest 2).
    2:{ rewrite R. unfold f, file_image. rewrite skipn_app_exact by auto. reflexivity. }
    reflexivity.
  - unfold peekable, f, file_image. rewrite zlen_app.
    replace (zlen hdr) with 53 by (unfold zlen; rewrite L; reflexivity).
    match goal with |- context [53 + ?n <? 2] => pose proof (zlen_nonneg (le16 (zlen (concat (map image_of es))) ++ concat (map image_of es) ++ le16 (fold_right Z.add 0 (concat (map image_of es)) mod 65536))); replace (53 + n <? 2) with false by lia end.
    reflexivity.
Qed.

(** ** C91: one entry out of a file *)

(** [load_from_file] with offset [k] loads the bytes of the entry number [k]. *)
Theorem C91_select : forall load hdr es k e, length hdr = 53%nat -> Forall storable es ->
  nth_error es k = Some e ->
  load_from_file load k (file_image hdr (map image_of es)) = load (image_of e).
Proof.
  intros load hdr es k e L F N. unfold load_from_file.
  destruct (file_start hdr es L) as (s & -> & R & ->). unfold oret at 1. rewrite obind_ret_l.
  destruct (entry_at_image es k e _ _ F N R) as (s' & ->). now rewrite obind_ret_l.
Qed.
Print Assumptions C91_select.

(** [open] loads the first entry; what it says about further entries depends on
    the data length of the second one. *)
Theorem C91_open : forall load construct c filename hdr e es wc w x, length hdr = 53%nat ->
  storable e -> Forall storable es -> construct = (wc, Ok tt) -> load (image_of e) = (w, Ok x) ->
  entry_open load construct c filename (file_image hdr (map image_of (e :: es))) =
  ((match type_id_of c with Some _ => if known_extension c filename then [] else [WExtension] | None => [] end)
     ++ wc ++ w ++ behind es, Ok x).
Proof.
  intros load construct c filename hdr e es wc w x L Se F C Ld. unfold entry_open.
  destruct (file_start hdr (e :: es) L) as (s & -> & R & ->). rewrite C. cbn [map concat] in R. rewrite <- app_assoc in R.
  rewrite (next_len_image e _ _ Se R).
  set (s1 := st_seek 2 s) in *.
  set (wx := match type_id_of c with Some _ => if known_extension c filename then [] else [WExtension] | None => [] end).
  assert (X : owarn_if (match type_id_of c with Some _ => negb (known_extension c filename) | None => false end) WExtension = (wx, Ok tt)).
  { unfold wx, owarn_if. destruct (type_id_of c); [|reflexivity]. now destruct (known_extension c filename). }
  rewrite X. clearbody wx. clear X. unfold oret at 1. cbn [obind].
  assert (RD : st_read (Z.to_nat (zlen (image_of e))) s1 = (image_of e, snd (st_read (Z.to_nat (zlen (image_of e))) s1))).
  { rewrite to_nat_zlen. unfold st_read. rewrite R, firstn_app_exact by reflexivity. reflexivity. }
  rewrite RD. clear RD.
  assert (R2 := st_read_rest (Z.to_nat (zlen (image_of e))) s1). rewrite R, to_nat_zlen, skipn_app_exact in R2 by reflexivity.
  rewrite to_nat_zlen. set (s2 := snd (st_read (length (image_of e)) s1)) in *. clearbody s2. clear s1 R s.
  rewrite Ld. cbn [obind].
  assert (Y : after_first (st_rest (st_seek 2 s2)) = (behind es, Ok tt)).
  { destruct es as [|f es].
    - change 2 with (Z.of_nat 2). cbn [map concat app] in R2. rewrite <- (app_nil_r (le16 _)) in R2.
      rewrite (st_seek_rest 2 s2 _ [] (eq_refl : length (le16 _) = 2%nat) R2). reflexivity.
    - inversion F as [|? ? Sf Fs]; subst. destruct (image_head f Sf) as (m & r & Hm & Im & _).
      cbn [map concat] in R2. rewrite Im in R2. cbn [app] in R2.
      change 2 with (Z.of_nat 2). match type of R2 with _ = m :: 0 :: ?l => rewrite (st_seek_rest 2 s2 [m; 0] l eq_refl) by (rewrite R2; reflexivity) end.
      unfold after_first. cbn [behind starts_with]. pose proof (st_data f Sf). pose proof (zlen_nonneg (b_data (e_data f))).
      set (n := zlen (b_data (e_data f))) in *. rewrite !andb_true_r.
      replace ((11 =? n mod 256) && (0 =? n / 256) || (13 =? n mod 256) && (0 =? n / 256)) with (looks_like_meta n)
        by (unfold looks_like_meta; lia).
      unfold owarn. now destruct (looks_like_meta n). }
  rewrite Y. unfold oret. cbn [obind app]. now rewrite !app_nil_r, <- ?app_assoc.
Qed.
Print Assumptions C91_open.

(** The extension check: a suffix of the lower-cased name. *)
Lemma starts_with_app (p l : bytes) : starts_with p l = true <-> exists r, l = p ++ r.
Proof.
  revert l. induction p as [|a p IH]; intros l; cbn [starts_with app].
  - split; eauto.
  - destruct l as [|b l]; [split; [discriminate|intros (r & E); discriminate E]|].
    rewrite andb_true_iff, IH, Z.eqb_eq. split.
    + intros (-> & r & ->). eauto.
    + intros (r & E). injection E as -> ->. eauto.
Qed.
Lemma ends_with_app (p l : str) : ends_with p l = true <-> exists r, l = r ++ p.
Proof.
  unfold ends_with. rewrite starts_with_app. split; intros (r & E).
  - exists (rev r). apply (f_equal (@rev Z)) in E. rewrite rev_involutive, rev_app_distr, rev_involutive in E. exact E.
  - exists (rev r). subst l. now rewrite rev_app_distr.
Qed.
Theorem C91_extension : forall c filename, known_extension c filename = true <-> has_extension c filename.
Proof.
  intros c f. unfold known_extension, has_extension. rewrite existsb_exists. split.
  - intros ([k ext] & I & E). cbn [snd] in E. apply ends_with_app in E as (r & E).
    exists (firstn (length r) f), (skipn (length r) f), ext. split; [now rewrite firstn_skipn|]. split.
    + change (map lower_ascii (skipn (length r) f) = ext).
      assert (M : map lower_ascii f = r ++ ext) by exact E.
      assert (G : forall n (l : list Z), map lower_ascii (skipn n l) = skipn n (map lower_ascii l)).
      { induction n; intros [|a l]; cbn [skipn map]; auto. }
      rewrite G, M. now apply skipn_app_exact.
    + apply in_map_iff. exists (k, ext). auto.
  - intros (stem & x & ext & -> & M & I). apply in_map_iff in I as ([k e] & E & I). cbn [snd] in E. subst e.
    exists (k, ext). split; [exact I|]. cbn [snd]. apply ends_with_app. exists (map lower_ascii stem).
    unfold lower. rewrite map_app. f_equal. exact M.
Qed.
Print Assumptions C91_extension.
(** Monochrome pictures list an empty extension, so every name is accepted. *)
Theorem C91_mono_any_name : forall filename, known_extension KMonoPicture filename = true.
Proof.
  intros f. apply C91_extension. exists f, [], []. split; [now rewrite app_nil_r|]. split; [reflexivity|].
  cbn. auto.
Qed.
Print Assumptions C91_mono_any_name.
(** A file of fewer than two bytes cannot be opened. *)
Theorem C91_short_file : forall load c filename file wc, (length file < 2)%nat ->
  snd (entry_open load (wc, Ok tt) c filename file) = Err OSError.
Proof.
  intros load c f file wc L. unfold entry_open.
  assert (P : peekable file = oerr OSError) by (unfold peekable; replace (zlen file <? 2) with true by (unfold zlen; lia); reflexivity).
  rewrite P. destruct (st_read 53 _) as [h s]. unfold owarn_if.
  destruct (match type_id_of c with Some _ => _ | None => _ end); reflexivity.
Qed.
Print Assumptions C91_short_file.
(** The claim that a file with several entries is recognised as such fails: the
    warning speaks of unexpected data. *)
Theorem C91_multiple_refuted : exists hdr e es w x, length hdr = 53%nat /\ Forall storable (e :: es) /\ es <> [] /\
  entry_open (entry_load ps0 KProgram) (oret tt) KProgram (s2l "HELLO.8xp") (file_image hdr (map image_of (e :: es))) = (w, Ok x) /\
  ~ In WMultiple w /\ In WDataLength w.
Proof.
  exists (header_bytes some_header), hello, [hello]. do 2 eexists.
  split; [reflexivity|]. split; [repeat (constructor; [exact hello_storable|]); constructor|]. split; [discriminate|].
  split; [vm_compute; reflexivity|]. split; [intros H; vm_compute in H; intuition discriminate|vm_compute; auto].
Qed.
Print Assumptions C91_multiple_refuted.
(** An offset behind the last entry is not noticed: the bytes at the end of the
    file are loaded as an entry. *)
Theorem C91_past_end_refuted : exists hdr es k w x, length hdr = 53%nat /\ Forall storable es /\ (length es <= k)%nat /\
  load_from_file (entry_load ps0 KEntry) k (file_image hdr (map image_of es)) = (w, Ok x).
Proof.
  exists (header_bytes some_header), [hello], 1%nat. do 2 eexists.
  split; [reflexivity|]. split; [repeat (constructor; [exact hello_storable|]); constructor|]. split; [cbn; lia|].
  vm_compute. reflexivity.
Qed.
Print Assumptions C91_past_end_refuted.
Example C91_example : Forall storable [flashless; hello] /\
  (exists w x, load_from_file (entry_load ps0 KEntry) 1 (file_image (header_bytes some_header) (map image_of [flashless; hello])) = (w, Ok x) /\
     e_cls x = KProgram /\ same_raw x hello) /\
  has_extension KProgram (s2l "HELLO.8XP") /\
  (exists x, entry_open (entry_load ps0 KProgram) (oret tt) KProgram (s2l "HELLO.8XP") (file_image (header_bytes some_header) [image_of hello])
    = ([], Ok x) /\ same_raw x hello).
Proof.
  split. { constructor; [|repeat (constructor; [exact hello_storable|]); constructor]. exact flashless_storable. }
  split. { do 2 eexists. split; [vm_compute; reflexivity|]. split; [reflexivity|repeat split]. }
  split. { exists (s2l "HELLO."), (s2l "8XP"), (s2l "8xp"). split; [reflexivity|]. split; [reflexivity|]. cbn. auto. }
  eexists. split; [vm_compute; reflexivity|repeat split].
Qed.

(** ** C92: comparing and copying *)
Lemma cls_eqb_spec a b : cls_eqb a b = true <-> a = b.
Proof. destruct a, b; vm_compute; split; intros H; try reflexivity; try discriminate H. Qed.

Lemma image_inj a b : storable a -> storable b -> image_of a = image_of b -> same_raw a b.
Proof.
  intros Sa Sb E.
  destruct Sa as [M1 (t1 & T1 & _) N1 (v1 & V1 & _) (a1 & A1 & _) NF1 D1 Mu1].
  destruct Sb as [M2 (t2 & T2 & _) N2 (v2 & V2 & _) (a2 & A2 & _) NF2 D2 Mu2].
  unfold image_of in E. rewrite T1, T2 in E. unfold entry_image in E.
  assert (MM : e_meta a = e_meta b).
  { destruct M1 as [M1|M1], M2 as [M2|M2]; rewrite M1, M2 in *; auto; discriminate E. }
  rewrite MM in E. set (fl := leqb (e_meta b) [13; 0]) in *.
  apply app_inv_head in E.
  assert (LL : zlen (b_data (e_data a)) = zlen (b_data (e_data b))).
  { unfold le16 in E. cbn [app] in E. injection E as E1 E2 _. lia. }
  rewrite LL in E. apply app_inv_head in E. cbn [app] in E. injection E as Et E. subst t2.
  assert (NN : e_name a = e_name b).
  { apply (f_equal (firstn 8)) in E. now rewrite !firstn_app_exact in E by auto. }
  rewrite NN in E. apply app_inv_head in E.
  assert (FF : e_version a = e_version b /\ e_archived a = e_archived b).
  { destruct M1 as [M1|M1].
    - rewrite (proj1 (NF1 M1)), (proj2 (NF1 M1)). rewrite MM in M1. now rewrite (proj1 (NF2 M1)), (proj2 (NF2 M1)).
    - assert (fl = true) as -> by (unfold fl; rewrite <- MM, M1; reflexivity).
      rewrite V1, A1, V2, A2 in E |- *. cbn [app] in E. injection E as -> -> _. auto. }
  destruct FF as [FV FA].
  rewrite FV, FA in E. apply app_inv_head in E. injection E as E.
  unfold same_raw. repeat split; auto.
  - now rewrite T1, T2.
  - destruct (e_data a), (e_data b); cbn in *; congruence.
Qed.

(** Two entries of a file are equal exactly when class and contents agree. *)
Theorem C92_entry : forall a b, storable a -> storable b -> (entry_eq a b = Ok true <-> same_entry a b).
Proof.
  intros a b Sa Sb. unfold entry_eq, same_entry. rewrite (entry_bytes_image a Sa), (entry_bytes_image b Sb). cbn [rbind].
  destruct (cls_eqb (e_cls a) (e_cls b)) eqn:K.
  - apply cls_eqb_spec in K. split.
    + intros H. injection H as H. apply leqb_spec in H. split; auto. now apply image_inj.
    + intros [_ H]. rewrite (same_raw_image _ _ H). now rewrite leqb_refl.
  - split; [discriminate|]. intros [H _]. apply cls_eqb_spec in H. congruence.
Qed.
Print Assumptions C92_entry.
(** Comparison of such entries answers. *)
Theorem C92_answers : forall a b, storable a -> storable b -> exists r, entry_eq a b = Ok r.
Proof.
  intros a b Sa Sb. unfold entry_eq. rewrite (entry_bytes_image a Sa), (entry_bytes_image b Sb). cbn [rbind].
  destruct (cls_eqb _ _); eauto.
Qed.
Print Assumptions C92_answers.
(** Vars are equal exactly when their entries are, in order; header and target
    model do not matter. *)
Theorem C92_var : forall a b, Forall storable (v_entries a) -> Forall storable (v_entries b) ->
  (var_eq a b = Ok true <-> Forall2 same_entry (v_entries a) (v_entries b)).
Proof.
  intros a b Fa Fb. unfold var_eq. destruct (v_entries a) as [|x xs] eqn:Ea; destruct (v_entries b) as [|y ys] eqn:Eb;
    cbn [length Nat.eqb]; try (split; [discriminate|intros H; inversion H]); [split; [constructor|reflexivity]|].
  clear a b Ea Eb. revert y ys Fa Fb. revert x. induction xs as [|x2 xs IH]; intros x y ys Fa Fb;
    inversion Fa as [|? ? Sx Fx]; inversion Fb as [|? ? Sy Fy]; subst.
  - destruct ys; cbn [length Nat.eqb all_eq].
    + destruct (C92_answers x y Sx Sy) as (r & E). pose proof (C92_entry x y Sx Sy) as Q. rewrite E in *. cbn [rbind].
      destruct r; split.
      * intros _. constructor; [now apply Q|constructor].
      * reflexivity.
      * discriminate.
      * intros H. inversion H as [|? ? ? ? H1 H2]; subst. apply Q in H1. exact H1.
    + split; [discriminate|]. intros H. inversion H as [|? ? ? ? H1 H2]; subst. inversion H2.
  - destruct ys as [|y2 ys]; cbn [length Nat.eqb].
    + split; [discriminate|]. intros H. inversion H as [|? ? ? ? H1 H2]; subst. inversion H2.
    + destruct (C92_answers x y Sx Sy) as (r & E). pose proof (C92_entry x y Sx Sy) as Q.
      specialize (IH x2 y2 ys Fx Fy). cbn [length Nat.eqb] in IH. cbn [all_eq] in IH |- *. rewrite E in *. cbn [rbind].
      destruct (Nat.eqb (length xs) (length ys)); destruct r.
      * split; intros H.
        -- constructor; [now apply Q|]. now apply IH.
        -- inversion H as [|? ? ? ? H1 H2]; subst. now apply IH.
      * split; [discriminate|]. intros H. inversion H as [|? ? ? ? H1 H2]; subst. apply Q in H1. exact H1.
      * split; [discriminate|]. intros H. inversion H as [|? ? ? ? H1 H2]; subst. apply IH in H2. discriminate H2.
      * split; [discriminate|]. intros H. inversion H as [|? ? ? ? H1 H2]; subst. apply Q in H1. discriminate H1.
Qed.
Print Assumptions C92_var.
Theorem C92_header_refuted : exists a b, v_header a <> v_header b /\ var_eq a b = Ok true /\ var_bytes a <> var_bytes b.
Proof.
  exists (Var some_header [hello] None), (Var (Header (s2l "**TI82**") [26; 10] [0] (zeros 42)) [hello] None).
  split; [discriminate|]. split; [vm_compute; reflexivity|]. vm_compute. discriminate.
Qed.
Print Assumptions C92_header_refuted.
(** Headers are equal exactly when all their sections agree, and a copy is
    equal. *)
Theorem C92_header : forall a b, header_wf a -> header_wf b -> (header_eq a b = true <-> a = b).
Proof.
  intros [a1 a2 a3 a4] [b1 b2 b3 b4] (A1 & A2 & (p & A3 & _) & A4) (B1 & B2 & (q & B3 & _) & B4). cbn in *.
  unfold header_eq. rewrite leqb_spec. split; [|intros E; now injection E as -> -> -> ->]. unfold header_bytes. cbn. intros E.
  assert (G : forall (x y u v : bytes), length x = length y -> x ++ u = y ++ v -> x = y /\ u = v).
  { induction x; intros [|b y] u v L H; try discriminate L; auto. cbn in H. injection H as -> H. injection L as L.
    destruct (IHx y u v L H). split; congruence. }
  apply G in E as [-> E]; [|congruence]. apply G in E as [-> E]; [|congruence].
  apply G in E as [-> ->]; [reflexivity|]. subst. reflexivity.
Qed.
Print Assumptions C92_header.
Theorem C92_header_copy : forall h, header_wf h -> header_copy h = h /\ header_eq (header_copy h) h = true.
Proof.
  intros h W. assert (E : header_copy h = h).
  { unfold header_copy. rewrite <- (app_nil_r (header_bytes h)). now apply C09_header_restores. }
  split; auto. rewrite E. now apply C92_header.
Qed.
Print Assumptions C92_header_copy.

(** Copying an entry: the contents are kept unless the version and archive
    bytes spell the data length; the copy is equal when the class is too. *)
Section Copy.
  Variable ps : bytes -> option bool.
  Variable construct : cls -> out unit.
  Variable wc : cls -> list warning.
  Hypothesis constructs : forall c, construct c = (wc c, Ok tt).

  Lemma copy_load e : storable e ->
    entry_copy (entry_load ps) construct e =
    (wc (e_cls e) ++ fst (entry_load ps (e_cls e) (image_of e)), snd (entry_load ps (e_cls e) (image_of e))).
  Proof.
    intros St. unfold entry_copy. rewrite constructs, (entry_bytes_image e St). unfold olift. cbn [obind].
    destruct (entry_load ps (e_cls e) (image_of e)). reflexivity.
  Qed.
  Lemma load_class e w x : storable e -> ~ ambiguous e -> entry_load ps (e_cls e) (image_of e) = (w, Ok x) ->
    exists w' y, coerce ps (Entry (e_cls e) (e_meta e) (e_type e) (e_name e) (e_version e) (e_archived e) (e_data e)) = (w', Ok y) /\ e_cls y = e_cls x.
  Proof.
    intros St NA H. rewrite <- (app_nil_r (image_of e)) in H.
    destruct St as [M (t & T & Bt) N (v & V & Bv) (a & A & Ba) NF D Mu].
    assert (F : exists w0, finish ps (Entry (e_cls e) (e_meta e) [t] (e_name e) [v] [a] (e_data e)) = (w0, Ok x)).
    { assert (DD : Buf true (b_data (e_data e)) = e_data e) by (destruct (e_data e); cbn in *; congruence).
      unfold image_of in H. rewrite T in H. destruct M as [M|M]; rewrite M in H |- *.
      - destruct (NF M) as [NV NAr]. rewrite NV in V. rewrite NAr in A. injection V as <-. injection A as <-.
        change (leqb (le16 11) [13; 0]) with false in H. cbv iota in H. rewrite load_image_11 in H by auto.
        apply obind_ok in H as (? & ? & ? & _ & H & _). rewrite DD in H. eauto.
      - change (leqb (le16 13) [13; 0]) with true in H. cbv iota in H. rewrite V, A in H. change ([v] ++ [a]) with [v; a] in H.
        rewrite load_image_13 in H; auto.
        + apply obind_ok in H as (? & ? & ? & _ & H & _). apply obind_ok in H as (? & ? & ? & _ & H & _). rewrite DD in H. eauto.
        + intros Q. apply NA. split; auto. now rewrite V, A. }
    destruct F as (w0 & F). unfold finish in F. apply obind_ok in F as (w1 & y & ? & C & F & _).
    rewrite T, V, A. exists w1, y. split; [exact C|].
    apply obind_ok in F as (? & ? & ? & _ & F & _). apply obind_ok in F as (? & ? & ? & _ & F & _).
    apply obind_ok in F as (? & ? & ? & _ & F & _). injection F as _ <-. reflexivity.
  Qed.

  Lemma plain_coerce e : plain (e_cls e) -> coerce ps e = ([], Ok e).
  Proof.
    unfold coerce, plain. intros H. cbn in H.
    repeat (destruct H as [H|H]; [rewrite <- H; unfold coerce_own; rewrite <- H; reflexivity|]). destruct H.
  Qed.
  Lemma plain_consistent c t d : plain c -> consistent_for c t d.
  Proof. unfold plain. intros H. cbn in H. repeat (destruct H as [<-|H]; [exact I|]). destruct H. Qed.

  (** For entries with content-independent classes. *)
  Theorem C92_copy : forall e, storable e -> plain (e_cls e) ->
    ((exists w x, entry_copy (entry_load ps) construct e = (w, Ok x) /\ entry_eq x e = Ok true) <-> ~ ambiguous e).
  Proof.
    intros e St Pl. rewrite (copy_load e St). split.
    - intros (w & x & H & Q) A. injection H as _ H.
      destruct (entry_load ps (e_cls e) (image_of e)) as [w0 r] eqn:L. cbn [snd] in H. subst r.
      rewrite <- (app_nil_r (image_of e)) in L. destruct (load_ambiguous ps _ e [] w0 x St A L) as [M _].
      unfold entry_eq in Q. destruct (cls_eqb _ _); [|discriminate Q]. rewrite (entry_bytes_image e St) in Q.
      destruct A as [AM AE]. unfold entry_bytes in Q. rewrite M in Q.
      destruct (raw_calc_data_length x) as [l|]; [|discriminate Q]. cbn [rbind] in Q.
      apply (f_equal (fun r => match r with Ok b => b | Err _ => false end)) in Q. cbv beta iota in Q. apply leqb_spec in Q.
      destruct (image_head e St) as (m & r & Hm & Im & _). unfold image_of in Im, Q.
      destruct (e_type e) as [|t [|]]; try discriminate Im. rewrite AM in Q. discriminate Q.
    - intros NA. destruct (st_type e St) as (t & T & _).
      destruct (load_storable ps (e_cls e) e [] St NA) as (w & x & H & SR & _).
      { exists t. split; auto. now apply plain_consistent. }
      rewrite app_nil_r in H. rewrite H. cbn [fst snd]. exists (wc (e_cls e) ++ w), x. split; [reflexivity|].
      destruct (load_class e w x St NA H) as (w' & y & C & K).
      rewrite plain_coerce in C by exact Pl. injection C as _ <-. cbn [e_cls] in K.
      apply C92_entry; [eapply same_raw_storable; eauto|exact St|]. split; auto.
  Qed.
  (** Complex entries whose type byte is their class's and is the imaginary
      part's. *)
  Theorem C92_copy_complex : forall e, storable e -> complex_class (e_cls e) -> ~ ambiguous e ->
    loadable_as (e_cls e) e -> (exists t, e_type e = [t] /\ type_id_of (e_cls e) = Some t) ->
    exists w x, entry_copy (entry_load ps) construct e = (w, Ok x) /\ entry_eq x e = Ok true.
  Proof.
    intros e St Cx NA Ld (t & T & K). rewrite (copy_load e St).
    destruct (load_storable ps (e_cls e) e [] St NA Ld) as (w & x & H & SR & _).
    rewrite app_nil_r in H. rewrite H. cbn [fst snd]. exists (wc (e_cls e) ++ w), x. split; [reflexivity|].
    apply C92_entry; [eapply same_raw_storable; eauto|exact St|]. split; auto.
    destruct (load_class e w x St NA H) as (w' & y & C & <-).
    destruct Ld as (t' & T' & Cn). assert (t' = t) by congruence. subst t'. destruct (st_type e St) as (t' & T2 & Bt).
    assert (t' = t) by congruence. subst t'.
    assert (Cb : exists b, nth_error (b_data (e_data e)) 9 = Some b /\ b mod 64 = t).
    { unfold complex_class in Cx. cbn in Cx. repeat (destruct Cx as [Cx|Cx]; [rewrite <- Cx in Cn; exact Cn|]). destruct Cx. }
    destruct Cb as (b & Nb & Mb).
    assert (CC : coerce ps (Entry (e_cls e) (e_meta e) (e_type e) (e_name e) (e_version e) (e_archived e) (e_data e)) =
      coerce_complex (Entry (e_cls e) (e_meta e) (e_type e) (e_name e) (e_version e) (e_archived e) (e_data e))).
    { unfold coerce, coerce_own. cbn [e_cls]. unfold complex_class in Cx. cbn in Cx.
      repeat (destruct Cx as [Cx|Cx]; [rewrite <- Cx; reflexivity|]). destruct Cx. }
    rewrite CC in C. unfold coerce_complex in C. change 9 with (Z.of_nat 9) in C. cbn [e_data] in C.
    rewrite (get_bits_at_nth _ _ _ Nb), Mb in C. cbn [olift obind] in C.
    destruct (set_type_same (Entry (e_cls e) (e_meta e) (e_type e) (e_name e) (e_version e) (e_archived e) (e_data e)) t T Bt) as (w2 & S).
    rewrite S in C. cbn [obind] in C. rewrite (type_id_byte (Entry (e_cls e) (e_meta e) (e_type e) (e_name e) (e_version e) (e_archived e) (e_data e)) t T Bt) in C. unfold olift in C. cbn [obind] in C.
    assert (G : get_type t = Some (e_cls e)).
    { unfold complex_class in Cx. cbn in Cx. repeat (destruct Cx as [Cx|Cx]; [rewrite <- Cx in K |- *; injection K as <-; reflexivity|]). destruct Cx. }
    rewrite G in C. unfold oret in C. injection C as _ <-. reflexivity.
  Qed.
  (** An assembly program object cannot be copied. *)
  Theorem C92_copy_asm : forall e, storable e -> asm_class (e_cls e) ->
    snd (entry_copy (entry_load ps) construct e) = Err UserWarningRaised.
  Proof.
    intros e St As. rewrite (copy_load e St). cbn [snd].
    assert (F : forall e', e_cls e' = e_cls e -> finish ps e' = ([], Err UserWarningRaised)).
    { intros e' K. unfold finish, coerce. rewrite K. destruct As as [As|As]; rewrite As; unfold coerce_own; rewrite K, As; cbn;
        unfold coerce_program; rewrite K, As; reflexivity. }
    rewrite <- (app_nil_r (image_of e)).
    destruct St as [M (t & T & Bt) N (v & V & Bv) (a & A & Ba) NF D Mu]. unfold image_of. rewrite T.
    assert (TC : exists w, type_check (e_cls e) t = (w, Ok tt)).
    { unfold type_check, owarn_if, owarn. destruct (type_id_of (e_cls e)); [|eexists; reflexivity].
      destruct (t =? z); [eexists; reflexivity|]. destruct (get_type t); eexists; reflexivity. }
    destruct TC as (wt & TC).
    destruct M as [M|M]; rewrite M.
    - change (leqb (le16 11) [13; 0]) with false. cbv iota. rewrite load_image_11 by auto. rewrite TC, F by reflexivity. reflexivity.
    - change (leqb (le16 13) [13; 0]) with true. cbv iota. rewrite V, A. change ([v] ++ [a]) with [v; a].
      destruct (list_eq_dec Z.eq_dec [v; a] (le16 (zlen (b_data (e_data e))))) as [Q|Q].
      + rewrite load_image_13_ambiguous by auto. rewrite TC, F by reflexivity. reflexivity.
      + rewrite load_image_13 by auto. rewrite TC, F by reflexivity. reflexivity.
  Qed.
End Copy.
Print Assumptions C92_copy.
Print Assumptions C92_copy_complex.
Print Assumptions C92_copy_asm.
(** A copy need not be equal: an entry that never took its own class. *)
Theorem C92_copy_refuted : exists e w x, storable e /\ ~ ambiguous e /\
  entry_copy (entry_load ps0) (fun _ => oret tt) e = (w, Ok x) /\ entry_eq x e = Ok false.
Proof.
  exists (with_cls hello KEntry). do 2 eexists.
  split; [destruct hello_storable; constructor; assumption|]. split; [intros [_ H]; discriminate H|].
  split; vm_compute; reflexivity.
Qed.
Print Assumptions C92_copy_refuted.
Example C92_example : storable flashless /\ plain (e_cls flashless) /\ ~ ambiguous flashless /\
  (exists w x, entry_copy (entry_load ps0) (fun _ => oret tt) flashless = (w, Ok x) /\ entry_eq x flashless = Ok true) /\
  entry_eq flashless (with_name flashless (66 :: zeros 7)) = Ok false /\
  var_eq (Var some_header [hello; flashless] None) (Var some_header [hello; flashless] (Some TI_83)) = Ok true /\
  var_eq (Var some_header [hello; flashless] None) (Var some_header [flashless; hello] None) = Ok false.
Proof.
  split; [exact flashless_storable|]. split; [left; reflexivity|]. split; [intros [H _]; discriminate H|].
  split; [do 2 eexists; split; vm_compute; reflexivity|]. repeat split; vm_compute; reflexivity.
Qed.

(** ** C93: joining a header with entries *)
Lemma add_entries_ok ns gv ps l : forall v, Forall (fun e => b_data (e_data e) <> []) l ->
  exists w v', add_entries ns gv ps v l = (w, Ok v') /\ v_entries v' = v_entries v ++ l /\
    v_header v' = v_header v /\ v_model v' = v_model v /\ ~ In WModel w.
Proof.
  induction l as [|e l IH]; intros v F.
  - exists [], v. rewrite app_nil_r. split; [reflexivity|]. repeat split. intros [].
  - inversion F as [|? ? N F2]; subst. destruct (C17_add_entry_kept ns gv ps v e N) as (w & v1 & E & A & B & C).
    assert (NW : ~ In WModel w).
    { unfold add_entry, is_empty, calc_data_length, calc_data in E.
      replace (zlen (b_data (e_data e)) =? 0) with false in E.
      2:{ destruct (b_data (e_data e)) as [|z zs]; [contradiction|]. rewrite zlen_cons. pose proof (zlen_nonneg zs). lia. }
      rewrite obind_oret in E. destruct (v_entries v); unfold owarn_if, oret in E; cbn [obind app] in E.
      - injection E as <- _. intros [].
      - destruct (negb _); injection E as <- _; intros X; [destruct X as [X|[]]; discriminate X|destruct X]. }
    destruct (IH v1 F2) as (w2 & v2 & E2 & A2 & B2 & C2 & N2).
    exists (w ++ w2), v2. cbn [add_entries]. rewrite E. cbn [obind]. rewrite E2. split; [reflexivity|].
    rewrite A2, A, <- app_assoc. split; [reflexivity|]. split; [congruence|]. split; [congruence|].
    rewrite in_app_iff. tauto.
Qed.
(** [header | entries] is the var with that header and those entries, aimed at
    one of the header's models, with no complaint about the model. *)
Theorem C93_join : forall ns gv ps pop h e es, header_wf h -> (exists m, h_magic h = s2l (magic_of m)) ->
  (forall m t, In (pop (m :: t)) (m :: t)) -> Forall (fun e => b_data (e_data e) <> []) (e :: es) ->
  exists w v m, header_or ns gv ps pop h (e :: es) = (w, Ok v) /\ v_header v = h /\ v_entries v = e :: es /\
    v_model v = Some m /\ addressed (h_magic h) (hd 0 (h_product h)) m /\ ~ In WModel w.
Proof.
  intros ns gv ps pop h e es W M Pop F.
  destruct (header_targets_total h W M) as (m & t & T). pose proof (header_targets_spec h W) as S. rewrite T in S.
  unfold header_or. rewrite T, obind_lift. unfold export, var_new.
  rewrite obind_oret, T, obind_lift.
  pose proof (Pop m t) as I. set (x := pop (m :: t)) in *. clearbody x.
  assert (E : existsb (model_eqb x) (m :: t) = true).
  { apply existsb_exists. exists x. split; auto. unfold model_eqb. apply Z.eqb_refl. }
  rewrite E. cbn [negb]. rewrite obind_warn_false, obind_oret.
  destruct (add_entries_ok ns gv ps (e :: es) (Var h [] (Some x)) F) as (w & v & A & B & C & D & N).
  exists w, v, x. cbn [add_entries] in A. split; [exact A|]. split; [exact C|]. split; [exact B|]. split; [exact D|]. split; auto.
  destruct W as (_ & _ & (p & P & _) & _). rewrite P. cbn [hd]. now apply S.
Qed.
Print Assumptions C93_join.
Theorem C93_no_entries : forall ns gv ps pop h, header_or ns gv ps pop h [] = ([], Err IndexError).
Proof. reflexivity. Qed.
Print Assumptions C93_no_entries.
(** With a magic text of no model the join fails. *)
Theorem C93_unknown_magic : forall ns gv ps pop h e es, header_wf h -> (forall m, h_magic h <> s2l (magic_of m)) ->
  snd (header_or ns gv ps pop h (e :: es)) = Err ValueError.
Proof.
  intros ns gv ps pop h e es W N. pose proof (header_targets_spec h W) as S. unfold header_or.
  destruct (header_targets h) as [t|x] eqn:T.
  - exfalso. unfold header_targets in T. destruct (header_product_id h) as [p|]; [|discriminate T]. cbn [rbind] in T.
    destruct W as (_ & _ & (q & Q & _) & _).
    destruct t as [|m t]. 2:{ destruct (proj1 (S q Q m) (or_introl eq_refl)) as [A _]. exact (N m A). }
    set (fs := filter _ (filter _ MODELS)) in T. clearbody fs. set (ms := filter _ MODELS) in T. clearbody ms.
    destruct fs; destruct ms; destruct (negb (p =? 0)); cbn [andb negb] in T; discriminate T.
  - destruct S as [-> _]. reflexivity.
Qed.
Print Assumptions C93_unknown_magic.
(** An entry without data is not kept. *)
Theorem C93_empty_refuted : exists h es w v, header_wf h /\
  header_or ns0 gv0 ps0 (fun l => hd TI_83P l) h es = (w, Ok v) /\ v_entries v <> es.
Proof.
  exists some_header, [Entry KEntry [13; 0] [255] (ljust 8 (s2l "NOTES")) [0] [0] (Buf true [])]. do 2 eexists.
  split. { unfold header_wf. repeat split. exists 10. split; [reflexivity|unfold is_byte; lia]. }
  split; [vm_compute; reflexivity|]. vm_compute. discriminate.
Qed.
Print Assumptions C93_empty_refuted.
Example C93_example : exists v, header_or ns0 gv0 ps0 (fun l => hd TI_83P l) some_header [hello; flashless] = ([WConflict], Ok v) /\
  v_entries v = [hello; flashless] /\ v_model v = Some TI_84P.
Proof. eexists. split; [vm_compute; reflexivity|]. split; reflexivity. Qed.

(** ** C94: the name of a saved file *)

(** Without a name the file is called after the var; a name without a dot gets
    the var's extension; a name with a dot is used as it is. *)
Theorem C94_default : forall name ext w x, ext = (w, Ok x) ->
  save_name None name ext = (w, Ok (name ++ [46] ++ x)) /\ save_name (Some []) name ext = (w, Ok (name ++ [46] ++ x)).
Proof. intros name ext w x ->. unfold save_name, oret. cbn [obind]. rewrite app_nil_r. split; reflexivity. Qed.
Print Assumptions C94_default.
Theorem C94_named : forall f name ext, f <> [] -> ~ In 46 f -> forall w x, ext = (w, Ok x) ->
  save_name (Some f) name ext = (w, Ok (f ++ [46] ++ x)).
Proof.
  intros f name ext N D w x ->. unfold save_name. destruct f as [|c f]; [contradiction|].
  destruct (memb 46 (c :: f)) eqn:M.
  - exfalso. apply D. unfold memb in M. apply existsb_exists in M as (y & I & E). apply Z.eqb_eq in E. subst. exact I.
  - unfold oret. cbn [obind]. rewrite app_nil_r. reflexivity.
Qed.
Print Assumptions C94_named.
Theorem C94_dotted : forall f name ext, In 46 f -> save_name (Some f) name ext = ([], Ok f).
Proof.
  intros f name ext D. unfold save_name. destruct f as [|c f]; [destruct D|].
  replace (memb 46 (c :: f)) with true; [reflexivity|]. symmetry. unfold memb. apply existsb_exists. exists 46. split; [exact D|reflexivity].
Qed.
Print Assumptions C94_dotted.
(** The dot may stand in a directory: such a file is saved without extension,
    and [open] then complains about it. *)
Theorem C94_directory_refuted : exists f name ext x g, ext = ([], Ok x) /\ ~ In 46 (skipn 6 f) /\ nth_error f 5 = Some 47 /\
  save_name (Some f) name ext = ([], Ok g) /\ ends_with (46 :: x) g = false /\
  ~ has_extension KProgram g.
Proof.
  exists (s2l "out.d/PROG"), (s2l "PROG"), (oret (s2l "8xp")). do 2 eexists.
  split; [reflexivity|]. split; [cbn; intuition discriminate|]. split; [reflexivity|].
  split; [vm_compute; reflexivity|]. split; [vm_compute; reflexivity|].
  intros H. apply C91_extension in H. vm_compute in H. discriminate H.
Qed.
Print Assumptions C94_directory_refuted.
(** The name chosen by default is recognised by [open] of the class, for every
    class and target model with an extension of its own. *)
Theorem C94_reopens : forall order v e x name, v_entries v = [e] -> extension order v = ([], Ok x) ->
  save_name None name (extension order v) = ([], Ok (name ++ [46] ++ x)) /\ has_extension (e_cls e) (name ++ [46] ++ x).
Proof.
  intros order v e x name E X. split; [now apply (proj1 (C94_default name _ [] x X))|].
  unfold extension in X. rewrite E in X.
  assert (G : forall k y, lookup_ext (extensions (e_cls e)) k = Ok y -> In y (map snd (extensions (e_cls e)))).
  { unfold lookup_ext. intros k y. generalize (extensions (e_cls e)). induction l as [|[k' y'] l IH]; cbn [ext_get map snd]; [discriminate|].
    destruct (match k' with Some _ => _ | None => _ end); [intros H; injection H as <-; now left|]. intros H. right. now apply IH. }
  assert (I : In x (map snd (extensions (e_cls e)))).
  { destruct (v_model v) as [m|].
    - destruct (ext_found order (extensions (e_cls e)) m).
      + apply obind_ok in X as (w1 & y & w2 & A & B & C). unfold olift in A.
        destruct (lookup_ext (extensions (e_cls e)) (Some m)) as [y'|] eqn:Q; [|discriminate A]. injection A as _ <-.
        destruct y'; [apply obind_ok in B as (? & ? & ? & _ & B & _)|].
        * unfold olift in B. destruct (lookup_ext _ None) eqn:Q2; [|discriminate B]. injection B as _ <-. eapply G, Q2.
        * injection B as _ <-. eapply G, Q.
      + rewrite obind_oret in X. apply obind_ok in X as (? & ? & ? & _ & B & _).
        unfold olift in B. destruct (lookup_ext _ None) eqn:Q2; [|discriminate B]. injection B as _ <-. eapply G, Q2.
    - unfold olift in X. destruct (lookup_ext _ None) eqn:Q2; [|discriminate X]. injection X as <-. eapply G, Q2. }
  exists (name ++ [46]), x, x. split; [now rewrite <- app_assoc|]. split; [|exact I].
  assert (L : forall y, In y (map snd (extensions (e_cls e))) -> map lower_ascii y = y).
  { intros y. destruct (e_cls e); cbn; intros H; repeat (destruct H as [<-|H]; [reflexivity|]); destruct H. }
  now apply L.
Qed.
Print Assumptions C94_reopens.
Example C94_example : save_name (Some (s2l "game")) (s2l "PROG") (extension model_index (Var some_header [hello] (Some TI_83))) = ([], Ok (s2l "game.83p")) /\
  save_name None (s2l "PROG") (extension model_index (Var some_header [hello] None)) = ([], Ok (s2l "PROG.8xp")).
Proof. split; vm_compute; reflexivity. Qed.
