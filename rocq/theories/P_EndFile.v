(** C158: an entry saved to a file of its own and opened again with its class. *)
From Verif Require Import L_Base M_Data M_Flags M_Models M_Class M_Var M_Real M_File
  S_Data L_Data L_Flags S_Var L_Models P_Models L_Var L_VarFile P_Var S_File P_File.

(** What [entry.save(filename, header=ho, model=m)] writes: the bytes, and the name
    of the file; [named] is the name of the var. *)
Definition saved ns gv ps order (e : entry) (filename : option str) (ho : option header) (m : option model) (named f : str) (file : bytes) : Prop :=
  exists w v w', export ns gv ps e ho m = (w, Ok v) /\ var_bytes v = Ok file /\ save_name filename named (extension order v) = (w', Ok f).
(** What opening says about the name of the file. *)
Definition name_warning (c : cls) (f : str) : list warning :=
  match type_id_of c with Some _ => if known_extension c f then [] else [WExtension] | None => [] end.

Lemma default_long m w h : header_default m = (w, Ok h) -> length (header_bytes h) = 53%nat.
Proof.
  destruct m as [m|]; [destruct m|]; vm_compute; intros H; injection H as _ <-; reflexivity.
Qed.
Lemma export_one ns gv ps e ho m w v : b_data (e_data e) <> [] -> (forall h, ho = Some h -> header_wf h) ->
  export ns gv ps e ho m = (w, Ok v) -> v_entries v = [e] /\ v_model v = m /\ length (header_bytes (v_header v)) = 53%nat.
Proof.
  intros NE HW E. unfold export in E. apply obind_ok in E as (w1 & v1 & w2 & E1 & E & _).
  destruct (C17_add_entry_kept ns gv ps v1 e NE) as (w3 & v3 & E3 & A & B & C). rewrite E3 in E. injection E as _ <-.
  unfold var_new in E1. apply obind_ok in E1 as (? & h & ? & EH & E1 & _). apply obind_ok in E1 as (? & ? & ? & _ & E1 & _). injection E1 as _ <-.
  cbn [v_entries v_model v_header app] in *. split; [exact A|]. split; [congruence|]. rewrite B. destruct ho as [h'|].
  - injection EH as _ <-. destruct (HW h' eq_refl) as (L1 & L2 & (p & L3 & _) & L4). unfold header_bytes. rewrite !app_length, L1, L2, L3, L4. reflexivity.
  - exact (default_long _ _ _ EH).
Qed.

Lemma open_fails load construct c g hdr e wc w y : length hdr = 53%nat -> storable e -> construct = (wc, Ok tt) -> load (image_of e) = (w, Err y) ->
  snd (entry_open load construct c g (file_image hdr (map image_of [e]))) = Err y.
Proof.
  intros L S C LD.
  pose proof (C91_open (fun b => ([], Ok (with_data e (Buf true b)))) construct c g hdr e [] wc [] (with_data e (Buf true (image_of e))) L S (Forall_nil _) C eq_refl) as H.
  unfold entry_open in *. rewrite C in *. destruct (st_read 53 _) as (q, s). revert H.
  match goal with |- context [owarn_if ?b WExtension] => generalize b; intros bx end.
  unfold owarn_if. destruct (peekable _) as (wp, [u|u]); [|destruct bx; intros H; discriminate H].
  destruct (next_entry_length _) as (wn, [(n, s1)|u']); [|destruct bx; intros H; discriminate H].
  destruct (st_read (Z.to_nat n) s1) as (b, s2) eqn:RD. intros H. cbn [obind oret] in H |- *. rewrite RD in *.
  assert (B : b = image_of e).
  { destruct (after_first _) as (wa, [ua|ua]); destruct bx; cbn [obind oret] in H; try discriminate H; injection H as _ H; exact H. }
  rewrite B, LD. reflexivity.
Qed.

Section Saved.
  Variable ns : cls -> str -> out bytes.
  Variable gv : entry -> option bytes -> out Z.
  Variable ps : bytes -> option bool.
  Variable order : model -> Z.
  Variable construct : cls -> out unit.
  Variable wc : cls -> list warning.
  Hypothesis constructs : forall c, construct c = (wc c, Ok tt).
  Notation saved := (saved ns gv ps order).
  Notation open c f file := (entry_open (entry_load ps c) (construct c) c f file).

(** Opening the file with a class is loading the bytes of the entry with that class. *)
Theorem C158_open : forall e filename ho m named f file c g w x, b_data (e_data e) <> [] -> storable e -> zlen (image_of e) < 65536 ->
  (forall h, ho = Some h -> header_wf h) -> saved e filename ho m named f file -> entry_load ps c (image_of e) = (w, Ok x) ->
  open c g file = (name_warning c g ++ wc c ++ w, Ok x).
Proof.
  intros e filename ho m named f file c g w x NE S Z HW (w1 & v & w2 & E & B & N) L.
  destruct (export_one ns gv ps e ho m w1 v NE HW E) as (EV & EM & LH).
  rewrite C14_var_bytes in B.
  - rewrite EV in B. injection B as <-. change (map image_of [e]) with (map image_of (e :: [])). rewrite (C91_open (entry_load ps c) (construct c) c g _ e [] (wc c) w x); auto.
    cbn [behind]. now rewrite app_nil_r.
  - rewrite EV. now constructor.
  - unfold entry_length. rewrite EV. cbn. rewrite (entry_len_image e S). lia.
Qed.
Theorem C158_open_fails : forall e filename ho m named f file c g w y, b_data (e_data e) <> [] -> storable e -> zlen (image_of e) < 65536 ->
  (forall h, ho = Some h -> header_wf h) -> saved e filename ho m named f file -> entry_load ps c (image_of e) = (w, Err y) ->
  snd (open c g file) = Err y.
Proof.
  intros e filename ho m named f file c g w y NE S Z HW (w1 & v & w2 & E & B & N) L.
  destruct (export_one ns gv ps e ho m w1 v NE HW E) as (EV & EM & LH).
  rewrite C14_var_bytes in B.
  - rewrite EV in B. injection B as <-. exact (open_fails _ _ c g _ e (wc c) w y LH S (constructs c) L).
  - rewrite EV. now constructor.
  - unfold entry_length. rewrite EV. cbn. rewrite (entry_len_image e S). lia.
Qed.
(** So opening with the entry's own class gives what a copy of the entry is (C92). *)
Theorem C158_copy : forall e filename ho m named f file g, b_data (e_data e) <> [] -> storable e -> zlen (image_of e) < 65536 ->
  (forall h, ho = Some h -> header_wf h) -> saved e filename ho m named f file ->
  snd (open (e_cls e) g file) = snd (entry_copy (entry_load ps) construct e).
Proof.
  intros e filename ho m named f file g NE S Z HW SV. rewrite (copy_load ps construct wc constructs e S). cbn [snd].
  destruct (entry_load ps (e_cls e) (image_of e)) as (w1, [x|y]) eqn:L.
  - rewrite (C158_open e filename ho m named f file (e_cls e) g w1 x NE S Z HW SV L). reflexivity.
  - exact (C158_open_fails e filename ho m named f file (e_cls e) g w1 y NE S Z HW SV L).
Qed.
(** An equal entry, if the class does not depend on the data, exactly if the entry
    can be told from a flashless one. *)
Theorem C158_equal : forall e filename ho m named f file g, b_data (e_data e) <> [] -> storable e -> zlen (image_of e) < 65536 -> plain (e_cls e) ->
  (forall h, ho = Some h -> header_wf h) -> saved e filename ho m named f file ->
  ((exists w x, open (e_cls e) g file = (w, Ok x) /\ entry_eq x e = Ok true) <-> ~ ambiguous e).
Proof.
  intros e filename ho m named f file g NE S Z P HW SV. rewrite <- (C92_copy ps construct wc constructs e S P).
  pose proof (C158_copy e filename ho m named f file g NE S Z HW SV) as Q.
  destruct (open (e_cls e) g file) as (w1, r1), (entry_copy (entry_load ps) construct e) as (w2, r2). cbn [snd] in Q. subst r2.
  split; intros (w & x & H & E); injection H as _ ->; eauto.
Qed.
(** The name chosen for the file has an extension that opening accepts. *)
Theorem C158_name : forall e ho m named f file, b_data (e_data e) <> [] -> (forall h, ho = Some h -> header_wf h) ->
  saved e None ho m named f file -> name_warning (e_cls e) f = [].
Proof.
  intros e ho m named f file NE HW (w1 & v & w2 & E & B & N).
  destruct (export_one ns gv ps e ho m w1 v NE HW E) as (EV & EM & _).
  unfold save_name in N. apply obind_ok in N as (w3 & x & w4 & X & N & _). injection N as _ <-.
  assert (I : exists k, In (k, x) (extensions (e_cls e))).
  { unfold extension in X. rewrite EV in X. 
    assert (G : forall k y, lookup_ext (extensions (e_cls e)) k = Ok y -> In (k, y) (extensions (e_cls e))).
    { intros k y. unfold lookup_ext. destruct (ext_get _ k) eqn:K; [|discriminate]. intros Q. injection Q as <-. now apply ext_get_in. }
    destruct (v_model v) as [mm|].
    - apply obind_ok in X as (? & y & ? & Y & X & _). destruct y as [|c y].
      + apply obind_ok in X as (? & ? & ? & _ & X & _). injection X as _ X. eauto.
      + injection X as _ <-. destruct (ext_found _ _ _); [injection Y as _ Y; eauto|discriminate Y].
    - injection X as _ X. eauto. }
  destruct I as (k & I). unfold name_warning. destruct (type_id_of (e_cls e)); [|reflexivity].
  match goal with |- context [known_extension _ ?n] => assert (K : known_extension (e_cls e) n = true) end; [|rewrite K; reflexivity]. apply C91_extension.
  exists (named ++ s2l "."), x, x. split; [now rewrite <- app_assoc|]. split; [|now apply (in_map snd) in I].
  clear - I. assert (A : forallb (fun c => forallb (fun kv => leqb (map lower_ascii (snd kv)) (snd kv)) (extensions c)) CLASSES = true) by (vm_compute; reflexivity).
  rewrite forallb_forall in A. assert (IC : In (e_cls e) CLASSES) by (destruct (e_cls e); vm_compute; tauto).
  specialize (A _ IC). rewrite forallb_forall in A. specialize (A _ I). now apply leqb_spec in A.
Qed.
End Saved.
Print Assumptions C158_open.
Print Assumptions C158_open_fails.
Print Assumptions C158_copy.
Print Assumptions C158_equal.
Print Assumptions C158_name.
(** The number -12.5 named X, saved for no model in particular. *)
Definition number_x : entry := Entry KReal [13; 0] [0] (s2l "X" ++ zeros 7) [0] [0] (Buf true [128; 129; 18; 80; 0; 0; 0; 0; 0]).
Example C158_example : storable number_x /\ ~ ambiguous number_x /\ plain (e_cls number_x) /\ exists file,
  saved ns0 gv0 ps0 model_index number_x None None None (s2l "X") (s2l "X.8xn") file /\ zlen file = 83 /\
  entry_open (entry_load ps0 KReal) (oret tt) KReal (s2l "X.8xn") file = ([], Ok number_x) /\
  entry_open (entry_load ps0 KReal) (oret tt) KReal (s2l "X.txt") file = ([WExtension], Ok number_x).
Proof.
  split; [|split; [|split; [now left|]]].
  - constructor; try (eexists; split; [reflexivity|unfold is_byte; lia]); try reflexivity; try (right; reflexivity); discriminate.
  - intros [_ X]. discriminate X.
  - eexists. split; [do 3 eexists; split; [vm_compute; reflexivity|]; split; [vm_compute; reflexivity|vm_compute; reflexivity]|].
    split; [vm_compute; reflexivity|]. split; vm_compute; reflexivity.
Qed.
(** An entry without data is not what its file holds. *)
Theorem C158_empty_refuted : exists e file w x, storable e /\ ~ ambiguous e /\ e_cls e = KAppVar /\ b_data (e_data e) = [] /\
  saved ns0 gv0 ps0 model_index e (Some (s2l "A.8xv")) None None (s2l "A") (s2l "A.8xv") file /\
  entry_open (entry_load ps0 KAppVar) (oret tt) KAppVar (s2l "A.8xv") file = (w, Ok x) /\ e_name x <> e_name e.
Proof.
  exists (Entry KAppVar [13; 0] [21] (s2l "A" ++ zeros 7) [1] [0] (Buf true [])). do 3 eexists. split; [|split; [|split; [reflexivity|split; [reflexivity|]]]].
  - constructor; try (eexists; split; [reflexivity|unfold is_byte; lia]); try reflexivity; try (right; reflexivity); discriminate.
  - intros [_ X]. discriminate X.
  - split; [do 3 eexists; split; [vm_compute; reflexivity|]; split; [vm_compute; reflexivity|vm_compute; reflexivity]|].
    split; [vm_compute; reflexivity|]. vm_compute. discriminate.
Qed.
Print Assumptions C158_empty_refuted.
