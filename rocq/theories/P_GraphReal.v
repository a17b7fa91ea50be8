(** C160: exact numbers in graph parameters. *)
From Verif Require Import L_Base M_Data M_Flags M_Models M_Class M_Var M_Real M_Complex M_List M_Gdb M_GraphReal
  S_Data L_Data L_Flags S_Var L_Var P_Var S_List L_List S_Complex L_Complex S_Gdb L_Gdb P_Gdb.

(** Plain numbers, undefined ones and fractions may be graph parameters. *)
Definition graphable (c : cls) : Prop := c = KReal \/ c = KUndefReal \/ c = KRealFraction.
Lemma graph_set_spec c d : (graphable c -> graph_set (Real c (Buf true d)) = ([], Ok d)) /\
  (~ graphable c -> graph_set (Real c (Buf true d)) = ([WGraphReal], Ok d)).
Proof.
  unfold graph_set, graphable. cbn [r_cls r_buf b_data]. split; intros H.
  - destruct H as [->|[->| ->]]; reflexivity.
  - destruct c; try reflexivity; exfalso; apply H; tauto.
Qed.

(** Assigning stores the nine bytes and changes no other field; it warns exactly about
    the other classes. *)
Theorem C160_set : forall e D name v c d, e_data e = Buf true D -> size_ok (e_cls e) (zlen D) -> In (name, v) (fields (e_cls e)) ->
  v_stop v = option_map (fun a => a + 9) (v_start v) -> length d = 9%nat ->
  exists w e', set_parameter e v (Real c (Buf true d)) = (w, Ok e') /\ get_field e' v = d /\
    (graphable c -> w = []) /\ (~ graphable c -> w = [WGraphReal]) /\
    (forall b u, In (b, u) (fields (e_cls e)) -> b <> name -> get_field e' u = get_field e u).
Proof.
  intros e D name v c d ED S I ST L.
  destruct (C61_read_back e D name v d ED S I ST L) as (e' & E & G).
  destruct (C61_set e D name v d ED S I) as (w1 & e1 & lo & hi & y & E1 & _ & _ & _ & _ & _ & O). rewrite E in E1. injection E1 as _ <-.
  destruct (graph_set_spec c d) as [Y N].
  assert (P : forall w, graph_set (Real c (Buf true d)) = (w, Ok d) -> set_parameter e v (Real c (Buf true d)) = (w, Ok e')).
  { intros w H. unfold set_parameter, set_field in *. rewrite H. revert E. unfold view_set, section_set_raw, obind, oret.
    destruct (fit_section _ d) as (wf, [x|x]); [|discriminate]. destruct (b_mut (e_data e)); [|discriminate]. cbn [app].
    intros Q. injection Q as Q1 Q2. rewrite !app_nil_r in *. subst wf. now rewrite app_nil_r, Q2. }
  assert (DC : graphable c \/ ~ graphable c) by (unfold graphable; destruct c; first [left; tauto | right; intros [H|[H|H]]; discriminate H]).
  destruct DC as [K|K].
  - exists [], e'. split; [apply P; now apply Y|]. split; [exact G|]. split; [auto|]. split; [tauto|exact O].
  - exists [WGraphReal], e'. split; [apply P; now apply N|]. split; [exact G|]. split; [tauto|]. split; [auto|exact O].
Qed.
Print Assumptions C160_set.

(** A parameter whose bytes are those of a real number reads as an entry of that
    number's class and bytes. *)
Theorem C160_get : forall ns ps e v c d, (exists nm, ns KGraphReal (s2l "A") = oret nm /\ (length nm <= 8)%nat) ->
  get_field e v = d -> real_payload c d ->
  exists x, get_parameter ns ps e v = oret x /\ e_cls x = c /\ calc_data x = d.
Proof.
  intros ns ps e v c d (nm0 & N0 & LN0) GF (L & W & I). unfold get_parameter. rewrite GF.
  assert (N : exists nm, section_set_raw (Some 8%nat) (ns KGraphReal (s2l "A")) = oret nm /\ length nm = 8%nat).
  { rewrite N0. unfold section_set_raw. rewrite obind_oret. unfold fit_section.
    replace (Nat.ltb 8 (length nm0)) with false by (symmetry; apply Nat.ltb_ge; lia). exists (ljust 8 nm0). split; [reflexivity|]. now apply ljust_length. }
  destruct N as (nm & N & LN). unfold elem_new, entry_new. cbv iota. rewrite N.
  change (meta_convert KGraphReal None 13) with (oret [13; 0]). rewrite obind_oret.
  change (section_set_raw (Some 1%nat) (bits_set 0 8 (match type_id_of KGraphReal with Some t => t | None => 255 end) None)) with (oret [255]).
  rewrite !obind_oret. change (set_archived (Entry KGraphReal [13; 0] [255] nm [] [] (Buf true [])) false)
    with (oret (Entry KGraphReal [13; 0] [255] nm [] [0] (Buf true []))). rewrite obind_oret.
  change (owarn_if (meta_length _ =? 11) WFlashless) with (oret tt). rewrite obind_oret.
  change (section_set_raw (Some 1%nat) (bits_set 0 8 0 None)) with (oret [0]). rewrite obind_oret.
  change (clear _) with (oret (Entry KGraphReal [13; 0] [255] nm [0] [0] (Buf true (zeros 9)))). rewrite obind_oret.
  clear GF. do 9 (destruct d as [|? d]; [discriminate L|]). destruct d; [|discriminate L]. cbn [nth] in I.
  set (dd := [z; z0; z1; z2; z3; z4; z5; z6; z7]) in *.
  change (set_data elem_version _ dd) with (oret (Entry KGraphReal [13; 0] [255] nm [0] [0] (Buf true dd))).
  rewrite obind_oret. unfold coerce. cbn [e_cls e_data].
  pose proof (get_bits_at_nth 0 (Buf true dd) z eq_refl) as G. change (Z.of_nat 0) with 0 in G. rewrite G. unfold olift. rewrite obind_ret_l.
  destruct I as [I|[I|[I|[I|[I|[I|[]]]]]]]; injection I as I1 I2; rewrite <- I1, <- I2;
    (vm_out; split; reflexivity).
Qed.
Print Assumptions C160_get.

(** So an exact number survives, warning or not; the class it comes back with is the
    one of its tag, whatever class was assigned. *)
Theorem C160_reread : forall ns ps e D name v c c' d, (exists nm, ns KGraphReal (s2l "A") = oret nm /\ (length nm <= 8)%nat) ->
  e_data e = Buf true D -> size_ok (e_cls e) (zlen D) -> In (name, v) (fields (e_cls e)) ->
  v_stop v = option_map (fun a => a + 9) (v_start v) -> real_payload c' d ->
  exists w e' x, set_parameter e v (Real c (Buf true d)) = (w, Ok e') /\ get_parameter ns ps e' v = oret x /\ e_cls x = c' /\ calc_data x = d /\
    (In WGraphReal w <-> ~ graphable c).
Proof.
  intros ns ps e D name v c c' d N ED S I ST P. destruct (C160_set e D name v c d ED S I ST) as (w & e' & E & G & Y & NY & _); [apply P|].
  destruct (C160_get ns ps e' v c' d N G P) as (x & X & C & K). exists w, e', x. split; [exact E|]. split; [exact X|]. split; [exact C|]. split; [exact K|].
  split.
  - intros J GC. rewrite (Y GC) in J. destruct J.
  - intros NG. rewrite (NY NG). now left.
Qed.
Print Assumptions C160_reread.

(** But the tag is looked up among all types: nine bytes tagged as a string read as a
    string, which is no number at all. *)
Theorem C160_foreign_refuted : forall ps m n v a d, length d = 9%nat -> wf_bytes d -> nth 0 d 0 mod 64 = 4 ->
  coerce ps (Entry KGraphReal m [255] n v a (Buf true d)) = oret (Entry KString m [4] n v a (Buf true d)) /\ issubclass KString KRealEntry = false.
Proof.
  intros ps m n v a d L W T. split; [|reflexivity]. destruct d as [|z d]; [discriminate L|]. cbn [nth] in T.
  unfold coerce. cbn [e_cls e_data]. pose proof (get_bits_at_nth 0 (Buf true (z :: d)) z eq_refl) as G. change (Z.of_nat 0) with 0 in G.
  rewrite G, T. reflexivity.
Qed.
Print Assumptions C160_foreign_refuted.
(** A tag that is no type leaves a number of no kind, with a warning. *)
Theorem C160_unknown : forall ps m n v a d, length d = 9%nat -> wf_bytes d -> get_type (nth 0 d 0 mod 64) = None ->
  exists w t, coerce ps (Entry KGraphReal m [255] n v a (Buf true d)) = ([w], Ok (Entry KGraphReal m [t] n v a (Buf true d))) /\ w = WTypeUnknown /\ t = nth 0 d 0 mod 64.
Proof.
  intros ps m n v a d L W T. destruct d as [|z d]; [discriminate L|]. cbn [nth] in *.
  exists WTypeUnknown, (z mod 64). split; [|split; reflexivity].
  unfold coerce. cbn [e_cls e_data]. pose proof (get_bits_at_nth 0 (Buf true (z :: d)) z eq_refl) as G. change (Z.of_nat 0) with 0 in G.
  rewrite G. unfold olift. rewrite obind_ret_l.
  assert (R : 0 <= z mod 64 < 64) by (apply Z.mod_pos_bound; lia). clear G. set (t := z mod 64) in *. clearbody t.
  rewrite (set_type_ok _ 255 t) by (first [reflexivity | exact R | unfold is_byte; lia]). rewrite obind_oret.
  unfold coerce_base. rewrite (type_id_byte _ t) by (first [reflexivity | unfold is_byte; lia]). unfold olift. rewrite obind_ret_l, T.
  replace (t =? 255) with false by lia. reflexivity.
Qed.
Print Assumptions C160_unknown.

Example C160_example : exists e' x, let e := Entry KTable [13; 0] [17] (zeros 8) [0] [0] (Buf true ([18; 0] ++ repeat 1 9 ++ repeat 2 9)) in
  In (s2l "TblMin", View (Some 2) (Some 11)) (fields KTable) /\ size_ok KTable (zlen (calc_data e)) /\
  set_parameter e (View (Some 2) (Some 11)) (Real KRealRadical (Buf true [28; 16; 0; 16; 0; 5; 0; 1; 0])) = ([WGraphReal], Ok e') /\
  get_parameter ns0 ps0 e' (View (Some 2) (Some 11)) = oret x /\ e_cls x = KRealRadical /\ calc_data x = [28; 16; 0; 16; 0; 5; 0; 1; 0] /\
  real_payload KRealRadical [28; 16; 0; 16; 0; 5; 0; 1; 0] /\
  get_type 50 = None.
Proof.
  do 2 eexists. cbv zeta. split; [vm_compute; tauto|]. split; [vm_compute; repeat split; try discriminate; auto|].
  split; [vm_compute; reflexivity|]. split; [vm_compute; reflexivity|]. split; [reflexivity|]. split; [reflexivity|].
  split; [split; [reflexivity|]; split; [apply Forall_forall; intros q J; cbn in J; unfold is_byte; lia|vm_compute; tauto]|].
  reflexivity.
Qed.
