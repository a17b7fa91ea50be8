(** Property theorems C59-C62, C82, C83: GDBs and settings. *)
From Verif Require Import L_Base M_Data M_Flags M_Models M_Class M_Var M_List M_Gdb S_Data L_Data S_Var L_Models L_Var L_List L_Pic S_Gdb L_Gdb P_Var.

Lemma color_at_of c p s r g k : shape c = Some (p, s, r) -> (k < s)%nat -> nth k (colors_of s g) 0 = color_at g k.
Proof. intros S K. unfold colors_of, color_at. destruct (g_tail g); [reflexivity|]. apply nth_repeat. Qed.

(** C59: reading equation [i] of a well-formed GDB. *)
Theorem C59_get : forall c g i q, gdb_ok c g -> nth_error (g_eqns g) i = Some q ->
  get_equation c i (gdb_bytes g) =
  Ok (Geq (eqn_bytes q) (Some [nth (group_of c i) (g_styles g) 0]) (Some [color_at g (group_of c i)])).
Proof.
  intros c g i q OK Q. pose proof OK as (p & s & r & S & LH & LS & LE & _ & _). destruct (leads_eq c p s r i S) as [_ ->].
  destruct (shape_facts c p s r S) as (_ & _ & _ & _ & R & _).
  assert (I : (i < s * r)%nat). { rewrite <- LE. apply nth_error_Some. congruence. }
  unfold get_equation. rewrite (equations_nth c p s r g i S OK I). rewrite (nth_error_nth _ _ _ Q).
  rewrite (color_at_of c p s r) by (auto; apply Nat.div_lt_upper_bound; lia). reflexivity.
Qed.
Print Assumptions C59_get.
(** Past the last equation there is none. *)
Theorem C59_get_out : forall c g i, gdb_ok c g -> (length (g_eqns g) <= i)%nat -> get_equation c i (gdb_bytes g) = Err IndexError.
Proof.
  intros c g i OK L. pose proof OK as (p & s & r & S & LH & LS & LE & _ & _). unfold get_equation.
  rewrite (proj2 (nth_error_None _ _)); [reflexivity|]. rewrite (equations_length c p s r g S OK). lia.
Qed.
Print Assumptions C59_get_out.

(** C59: assigning an equation rewrites the payload into that of the GDB with this
    equation replaced. *)
Theorem C59_set : forall e g i q st co, gdb_ok (e_cls e) g -> e_data e = Buf true (gdb_bytes g) -> (i < length (g_eqns g))%nat ->
  put_equation e i (Geq (eqn_bytes q) (Some [st]) (Some [co])) =
  oret (with_data e (Buf true (gdb_bytes (assign (e_cls e) i q st co g)))).
Proof.
  intros e g i q st co OK D I. pose proof OK as (p & s & r & S & LH & LS & LE & _ & _). unfold put_equation, calc_data. rewrite D. cbn [b_data].
  rewrite (set_equation_image (e_cls e) p s r g i _ q st co S OK); [|lia|reflexivity|intros _; split; [reflexivity|intros _; reflexivity]].
  match goal with |- obind ?m _ = _ => replace m with (oret (Buf true (gdb_bytes (assign (e_cls e) i q st co g)))) end; [reflexivity|].
  rewrite <- (py_slice_set_all (gdb_bytes g) (gdb_bytes (assign (e_cls e) i q st co g))) at 1. reflexivity.
Qed.
Print Assumptions C59_set.

(** C59, the claim: the assigned equation reads back, every other equation is
    unchanged up to the style and colour it shares with the assigned one, the
    window parameters and the last five colour bytes stay. *)
Theorem C59_independent : forall e g i q st co, gdb_ok (e_cls e) g -> e_data e = Buf true (gdb_bytes g) -> (i < length (g_eqns g))%nat -> eqn_ok q ->
  exists e' g', put_equation e i (Geq (eqn_bytes q) (Some [st]) (Some [co])) = ([], Ok e') /\
    e_data e' = Buf true (gdb_bytes g') /\ gdb_ok (e_cls e) g' /\ e_cls e' = e_cls e /\
    (exists x, get_equation (e_cls e) i (calc_data e') = Ok x /\ q_data x = eqn_bytes q /\
       (leads (e_cls e) i = true -> x = Geq (eqn_bytes q) (Some [st]) (Some [if g_tail g then co else 0]))) /\
    (forall j, j <> i -> exists x y, (j < length (g_eqns g))%nat ->
       get_equation (e_cls e) j (calc_data e) = Ok x /\ get_equation (e_cls e) j (calc_data e') = Ok y /\ q_data y = q_data x /\
       (group_of (e_cls e) j <> group_of (e_cls e) i \/ leads (e_cls e) i = false -> y = x)) /\
    g_head g' = g_head g /\ option_map t_rest (g_tail g') = option_map t_rest (g_tail g).
Proof.
  intros e g i q st co OK D I Q. pose proof OK as (p & s & r & S & LH & LS & LE & QS & TK).
  destruct (leads_eq (e_cls e) p s r i S) as [LD GI]. destruct (shape_facts (e_cls e) p s r S) as (_ & _ & _ & _ & R & _).
  set (g' := assign (e_cls e) i q st co g). assert (OK' : gdb_ok (e_cls e) g') by (apply assign_ok; assumption).
  assert (DIV : forall j, (j < length (g_eqns g))%nat -> (j / r < s)%nat) by (intros j J; apply Nat.div_lt_upper_bound; lia).
  assert (ST : forall j, (j < length (g_eqns g))%nat -> nth (group_of (e_cls e) j) (g_styles g') 0 = if leads (e_cls e) i && Nat.eqb (group_of (e_cls e) j) (group_of (e_cls e) i) then st else nth (group_of (e_cls e) j) (g_styles g) 0).
  { intros j J. unfold g', assign. cbn [g_styles]. destruct (leads (e_cls e) i); [|reflexivity]. destruct (leads_eq (e_cls e) p s r j S) as [_ GJ]. rewrite GI, GJ.
    rewrite <- put_replace by (rewrite LS; auto). rewrite put_nth by (rewrite LS; auto). cbn [andb]. reflexivity. }
  assert (CO : forall j, (j < length (g_eqns g))%nat -> color_at g' (group_of (e_cls e) j) = if leads (e_cls e) i && Nat.eqb (group_of (e_cls e) j) (group_of (e_cls e) i) then (if g_tail g then co else 0) else color_at g (group_of (e_cls e) j)).
  { intros j J. unfold g', assign, color_at. cbn [g_tail]. destruct (g_tail g) as [t|]; cbn [option_map t_colors]; [|destruct (_ && _); reflexivity].
    destruct (leads (e_cls e) i); [|reflexivity]. destruct TK as (_ & LC & _). destruct (leads_eq (e_cls e) p s r j S) as [_ GJ]. rewrite GI, GJ.
    rewrite <- put_replace by (rewrite LC; auto). rewrite put_nth by (rewrite LC; auto). reflexivity. }
  assert (GE : forall j x, nth_error (g_eqns g') j = Some x -> (j < length (g_eqns g))%nat).
  { intros j x H. assert (nth_error (g_eqns g') j <> None) by congruence. apply nth_error_Some in H0. unfold g', assign in H0. cbn [g_eqns] in H0. now rewrite replace_length in H0. }
  eexists. exists g'. split; [exact (C59_set e g i q st co OK D I)|]. fold g'. split; [reflexivity|]. split; [exact OK'|]. split; [reflexivity|].
  change (calc_data (with_data e (Buf true (gdb_bytes g')))) with (gdb_bytes g'). replace (calc_data e) with (gdb_bytes g) by (unfold calc_data; now rewrite D).
  assert (NI : nth_error (g_eqns g') i = Some q). { unfold g', assign. cbn [g_eqns]. rewrite replace_nth by exact I. now rewrite Nat.eqb_refl. }
  split; [|split; [|split]].
  - eexists. split; [apply C59_get; [exact OK'|exact NI]|]. split; [reflexivity|]. intros L. rewrite ST, CO by exact I. rewrite L, Nat.eqb_refl. reflexivity.
  - intros j NE. destruct (nth_error (g_eqns g) j) as [qj|] eqn:J.
    2:{ exists fresh_equation, fresh_equation. intros X. apply nth_error_None in J. lia. }
    assert (J' : nth_error (g_eqns g') j = Some qj). { unfold g', assign. cbn [g_eqns]. rewrite replace_nth by exact I. replace (Nat.eqb j i) with false by (symmetry; now apply Nat.eqb_neq). exact J. }
    do 2 eexists. intros X. split; [apply C59_get; [exact OK|exact J]|]. split; [apply C59_get; [exact OK'|exact J']|]. split; [reflexivity|].
    intros H. rewrite ST, CO by exact X. replace (leads (e_cls e) i && Nat.eqb (group_of (e_cls e) j) (group_of (e_cls e) i)) with false; [reflexivity|].
    symmetry. destruct H as [H | ->]; [|reflexivity]. apply andb_false_intro2. now apply Nat.eqb_neq.
  - reflexivity.
  - unfold g', assign. cbn [g_tail]. destruct (g_tail g); reflexivity.
Qed.
Print Assumptions C59_independent.

(** A parametric GDB: twelve equations in six pairs, colours. *)
Definition param_ex : gdb := Gdb (repeat 7 88) [0; 1; 2; 3; 4; 5] (map (fun i => Eqn 35 (repeat 65 i)) (seq 0 12))
  (Some (Tail [56; 52; 67] [1; 2; 3; 4; 5; 6] [13; 3; 0; 1; 0])).
Example C59_example : gdb_ok KParam param_ex /\
  (exists e', put_equation (Entry KParam [13; 0] [8] (zeros 8) [0] [0] (Buf true (gdb_bytes param_ex))) 2 (Geq (eqn_bytes (Eqn 35 [66; 67])) (Some [9]) (Some [8])) = ([], Ok e') /\
     get_equation KParam 2 (calc_data e') = Ok (Geq [35; 2; 0; 66; 67] (Some [9]) (Some [8])) /\
     get_equation KParam 3 (calc_data e') = Ok (Geq [35; 3; 0; 65; 65; 65] (Some [9]) (Some [8])) /\
     get_equation KParam 4 (calc_data e') = get_equation KParam 4 (gdb_bytes param_ex)).
Proof.
  split.
  - exists 3%nat, 6%nat, 2%nat. repeat (split; [reflexivity|]). split; [|repeat split; reflexivity]. unfold eqn_ok, param_ex. cbn [g_eqns]. apply Forall_forall. intros x Hx.
    apply in_map_iff in Hx as (i & <- & Hi). apply in_seq in Hi. cbn [x_body]. unfold zlen. rewrite repeat_length. lia.
  - eexists. split; [vm_compute; reflexivity|]. repeat split; vm_compute; reflexivity.
Qed.

(** The style and colour given with the second equation of a pair are dropped: the
    assigned object does not read back. *)
Theorem C59_pair_refuted : exists e i v e' x, put_equation e i v = ([], Ok e') /\ gdb_ok (e_cls e) param_ex /\ calc_data e = gdb_bytes param_ex /\
  get_equation (e_cls e) i (calc_data e') = Ok x /\ q_style x <> q_style v /\ q_color x <> q_color v.
Proof.
  exists (Entry KParam [13; 0] [8] (zeros 8) [0] [0] (Buf true (gdb_bytes param_ex))), 3%nat, (Geq [35; 0; 0] (Some [9]) (Some [8])). do 2 eexists.
  split; [vm_compute; reflexivity|]. split; [apply C59_example|]. split; [reflexivity|]. split; [vm_compute; reflexivity|]. split; discriminate.
Qed.
Print Assumptions C59_pair_refuted.
(** Assigning a newly made equation (no tokens yet) damages the following ones: its
    length word says 1 but no byte follows. *)
Theorem C59_fresh_refuted : exists e i e' x y, put_equation e i fresh_equation = ([], Ok e') /\ gdb_ok (e_cls e) param_ex /\ calc_data e = gdb_bytes param_ex /\
  get_equation (e_cls e) (i + 1) (calc_data e) = Ok x /\ get_equation (e_cls e) (i + 1) (calc_data e') = Ok y /\ q_data y <> q_data x.
Proof.
  exists (Entry KParam [13; 0] [8] (zeros 8) [0] [0] (Buf true (gdb_bytes param_ex))), 4%nat. do 3 eexists.
  split; [vm_compute; reflexivity|]. split; [apply C59_example|]. split; [reflexivity|]. split; [vm_compute; reflexivity|]. split; [vm_compute; reflexivity|]. discriminate.
Qed.
Print Assumptions C59_fresh_refuted.
(** An equation object without style, such as a plain TIEquation, cannot be
    assigned to a slot that leads its group. *)
Theorem C59_plain : forall e g i d, gdb_ok (e_cls e) g -> e_data e = Buf true (gdb_bytes g) -> (i < length (g_eqns g))%nat -> leads (e_cls e) i = true ->
  snd (put_equation e i (Geq d None None)) = Err AttributeError.
Proof.
  intros e g i d OK D I L. pose proof OK as (p & s & r & S & LH & LS & LE & _ & _). destruct (leads_eq (e_cls e) p s r i S) as [LD _]. rewrite LD in L.
  destruct (shape_facts (e_cls e) p s r S) as (_ & NS & NE & NR & R & SP & RS).
  unfold put_equation, calc_data. rewrite D. cbn [b_data]. unfold set_equation. cbv zeta. rewrite NR, RS, map_map.
  assert (G : forall ks, In (i / r)%nat ks -> (forall k, In k ks -> (k < s)%nat) ->
    rmapM (fun q => slot (q_style q)) (map (fun k => nth (r * k) (put i (Geq d None None) (equations (e_cls e) (gdb_bytes g))) fresh_equation) ks) = Err AttributeError).
  { induction ks as [|k ks IH]; intros H B; [destruct H|]. cbn [map rmapM]. assert (I' : (i < length (equations (e_cls e) (gdb_bytes g)))%nat) by (rewrite (equations_length (e_cls e) p s r g S OK); lia).
    rewrite put_nth by exact I'. apply Nat.eqb_eq in L. assert (DI : i = (r * (i / r))%nat) by (rewrite (Nat.div_mod i r) at 1 by lia; lia).
    destruct (Nat.eqb_spec (r * k) i) as [E | N]; [reflexivity|].
    destruct H as [H | H]; [exfalso; apply N; rewrite H; symmetry; exact DI|]. assert (K : (k < s)%nat) by (apply B; now left).
    rewrite (nth_error_nth _ _ _ (equations_nth (e_cls e) p s r g (r * k) S OK ltac:(nia))). cbn [q_style slot rbind]. rewrite IH by (auto; intros; apply B; now right). reflexivity. }
  rewrite (G (seq 0 s)); [reflexivity| |intros k Hk; apply in_seq in Hk; lia]. apply in_seq. split; [lia|]. apply Nat.div_lt_upper_bound; lia.
Qed.
Print Assumptions C59_plain.
(** In the second slot of a pair it is accepted, and without a flag byte it
    shifts everything behind it. *)
Theorem C59_plain_refuted : exists e i d e' x y, put_equation e i (Geq d None None) = ([], Ok e') /\ calc_data e = gdb_bytes param_ex /\
  get_equation (e_cls e) (i + 1) (calc_data e) = Ok x /\ get_equation (e_cls e) (i + 1) (calc_data e') = Ok y /\ q_data y <> q_data x.
Proof.
  exists (Entry KParam [13; 0] [8] (zeros 8) [0] [0] (Buf true (gdb_bytes param_ex))), 3%nat, [2; 0; 66; 67]. do 3 eexists.
  split; [vm_compute; reflexivity|]. split; [reflexivity|]. split; [vm_compute; reflexivity|]. split; [vm_compute; reflexivity|]. discriminate.
Qed.
Print Assumptions C59_plain_refuted.

(** C60: mono() of a colour GDB: same name, type and archive byte, and exactly the
    payload without the colour part, in the monochrome class of the mode. *)
Theorem C60_mono : forall ns gv ps e g wn en wv v, storable e -> ~ ambiguous e -> colour (e_cls e) = true ->
  gdb_ok (e_cls e) g -> g_tail g <> None -> calc_data e = gdb_bytes g -> e_type e = [8] -> nth_error (g_head g) 3 = Some (mode_value (e_cls e)) ->
  entry_new ns gv ps (mono_of (e_cls e)) true (s2l "GDB1") (Some 0) None [] = (wn, Ok en) ->
  (forall x, e_cls x = mono_of (e_cls e) -> gv x None = (wv, Ok v)) ->
  exists w e', gdb_mono ns gv ps e = (w, Ok e') /\ e_cls e' = mono_of (e_cls e) /\ gdb_ok (e_cls e') (strip g) /\
    e_data e' = Buf true (gdb_bytes (strip g)) /\ e_meta e' = e_meta e /\ e_type e' = e_type e /\ e_name e' = e_name e /\ e_archived e' = e_archived e /\
    e_version e' = [v mod 256] /\ In WDataLength w /\
    (le_int (firstn 2 (g_head g)) = zlen (gdb_bytes g) - 2 -> In WSized w).
Proof.
  intros ns gv ps e g wn en wv v ST NA C OK T D TY M NEW GV. destruct (mono_facts (e_cls e) C) as (p & s & r & S & SM & MC).
  pose proof (entry_bytes_image e ST) as EB. destruct ST as [ME (t & T' & Bt) N (ver & V & Bv) (a & A & Ba) NF LD Mut].
  assert (t = 8) by congruence. subst t.
  destruct (g_tail g) as [tl|] eqn:TG; [|congruence]. clear T.
  assert (OKS : gdb_ok (mono_of (e_cls e)) (strip g)).
  { destruct OK as (p' & s' & r' & S' & H). rewrite S in S'. injection S' as <- <- <-. exists p, s, r. split; [exact SM|]. cbn [strip g_head g_styles g_eqns g_tail]. tauto. }
  assert (LT : length (tail_bytes (Some tl)) = (3 + s + 5)%nat).
  { destruct OK as (p' & s' & r' & S' & _ & _ & _ & _ & H). rewrite S in S'. injection S' as <- <- <-. rewrite TG in H. destruct H as (? & ? & ?). cbn [tail_bytes]. rewrite !app_length. lia. }
  assert (LH : length (g_head g) = (61 + 9 * p)%nat). { destruct OK as (p' & s' & r' & S' & H & _). rewrite S in S'. injection S' as <- <- <-. exact H. }
  assert (SP : gdb_bytes g = gdb_bytes (strip g) ++ tail_bytes (Some tl)).
  { unfold gdb_bytes. cbn [strip g_head g_styles g_eqns g_tail]. rewrite TG. rewrite app_nil_r, <- !app_assoc. reflexivity. }
  set (n := zlen (b_data (e_data e))) in *. fold n in LD. assert (DN : b_data (e_data e) = gdb_bytes g) by exact D.
  assert (NL : zlen (gdb_bytes (strip g)) = n - Z.of_nat (3 + s + 5)). { unfold n. rewrite DN, SP, zlen_app. replace (zlen (tail_bytes (Some tl))) with (Z.of_nat (3 + s + 5)) by (unfold zlen; now rewrite LT). lia. }
  assert (N2 : 2 <= zlen (gdb_bytes (strip g))). { unfold gdb_bytes. cbn [strip g_head]. rewrite zlen_app. unfold zlen at 1. rewrite LH. pose proof (zlen_nonneg (g_styles (strip g) ++ concat (map eqn_bytes (g_eqns (strip g))) ++ tail_bytes (g_tail (strip g)))). lia. }
  assert (N0 : 0 <= n) by apply zlen_nonneg.
  set (e1 := Entry (mono_of (e_cls e)) (e_meta e) [8] (e_name e) [ver] [a] (Buf true (gdb_bytes (strip g)))).
  assert (TC : type_check (mono_of (e_cls e)) 8 = oret tt) by (destruct (e_cls e); try discriminate C; reflexivity).
  assert (FIN : finish ps e1 = oret e1).
  { unfold finish. rewrite (coerce_mono_self ps (e_cls e) e1 g C eq_refl OKS eq_refl M), obind_oret. rewrite (version_byte e1 ver eq_refl Bv), obind_lift.
    replace (negb (leqb (versions (e_cls e1)) [0])) with false by (unfold e1; cbn [e_cls]; destruct (e_cls e); try discriminate C; reflexivity). cbn [andb]. rewrite obind_warn_false.
    replace (flash_only (e_cls e1)) with false by (unfold e1; cbn [e_cls]; destruct (e_cls e); try discriminate C; reflexivity). rewrite andb_false_r, obind_warn_false. reflexivity. }
  assert (LOAD : exists w0, In WDataLength w0 /\ entry_load ps (mono_of (e_cls e)) (py_slice (image_of e) None (Some (- Z.of_nat (3 + s + 5)))) = (w0, Ok e1)).
  { unfold image_of. rewrite TY. unfold entry_image. fold n. rewrite DN, SP. destruct ME as [ME | ME]; rewrite ME.
    - change (leqb (le16 11) [13; 0]) with false. cbv iota. rewrite app_nil_l.
      rewrite !app_assoc. rewrite py_slice_drop by (auto; lia). rewrite <- !app_assoc.
      destruct (NF ME) as [NV NAr]. rewrite NV in V. injection V as <-. rewrite NAr in A. injection A as <-.
      rewrite load_short_11 by (auto; lia). rewrite TC, obind_oret. change [11; 0] with (le16 11). rewrite <- ME. fold e1. rewrite FIN. eexists. split; [|reflexivity]. now left.
    - change (leqb (le16 13) [13; 0]) with true. cbv iota. rewrite V, A.
      rewrite !app_assoc. rewrite py_slice_drop by (auto; lia). rewrite <- !app_assoc.
      change ([ver] ++ [a] ++ ?x) with ([ver; a] ++ x). rewrite load_short_13; [|assumption|assumption|lia|lia|].
      2:{ intros X. apply NA. split; [exact ME|]. rewrite V, A. exact X. }
      rewrite TC, obind_oret. change [13; 0] with (le16 13). rewrite <- ME. fold e1. rewrite FIN. eexists. split; [|reflexivity]. apply in_or_app. right. now left. }
  destruct LOAD as (w0 & IW & LOAD).
  unfold gdb_mono. rewrite MC, EB, obind_lift. unfold sized_init. rewrite NEW. unfold sized_load. rewrite LOAD.
  cbn [obind]. set (sz := owarn_if _ WSized). assert (exists ws, sz = (ws, Ok tt) /\ (le_int (firstn 2 (g_head g)) = zlen (gdb_bytes g) - 2 -> In WSized ws)) as (ws & -> & HS).
  { unfold sz, owarn_if. eexists. split; [reflexivity|]. intros W.
    assert (LF : length_field e1 = le_int (firstn 2 (g_head g))).
    { unfold length_field, view_get, e1. cbn [e_cls e_data b_data]. replace (length_view (mono_of (e_cls e))) with (View (Some 0) (Some 2)) by (destruct (e_cls e); try discriminate C; reflexivity). cbn [v_start v_stop].
      rewrite py_slice_nn by lia. change (Z.to_nat (2 - 0)) with 2%nat. change (skipn (Z.to_nat 0) ?l) with l. unfold gdb_bytes. cbn [strip g_head]. rewrite firstn_app, LH. cbn [Nat.sub]. change (2 - (61 + 9 * p))%nat with 0%nat. cbn [firstn]. rewrite app_nil_r. reflexivity. }
    assert (DL : zlen (leading_data_bytes (e_cls e1)) + zlen (data e1) = zlen (gdb_bytes (strip g)) - 2).
    { unfold e1, data. cbn [e_cls e_data]. replace (leading_data_bytes (mono_of (e_cls e))) with (@nil Z) by (destruct (e_cls e); try discriminate C; reflexivity).
      replace (data_view (mono_of (e_cls e))) with (View (Some 2) None, DSized) by (destruct (e_cls e); try discriminate C; reflexivity). cbn [fst]. unfold view_get. cbn [v_start v_stop b_data]. rewrite py_slice_from by lia.
      unfold zlen in *. rewrite skipn_length. cbn [length]. lia. }
    rewrite LF, DL, W. rewrite SP, zlen_app. replace (zlen (tail_bytes (Some tl))) with (Z.of_nat (3 + s + 5)) by (unfold zlen; now rewrite LT).
    replace (_ =? _) with false by (symmetry; apply Z.eqb_neq; lia). now left. }
  cbn [obind oret]. rewrite (GV e1 eq_refl). cbn [obind]. unfold set_version.
  change (e_version e1) with [ver]. rewrite (bits_set_silent v [ver] ver eq_refl Bv).
  match goal with |- context [owarn_if ?b WFlashless] => destruct (owarn_if b WFlashless) as [wf rf] eqn:WF; assert (rf = Ok tt) by (unfold owarn_if in WF; destruct b; congruence); subst rf end.
  cbn [obind section_set_raw fit_section]. unfold section_set_raw, fit_section. cbn [obind oret List.length Nat.ltb Nat.leb owarn_if firstn]. change (ljust 1 [v mod 256]) with [v mod 256].
  do 2 eexists. split; [reflexivity|]. unfold with_version, e1. cbn [e_cls e_data e_meta e_type e_name e_archived e_version].
  split; [reflexivity|]. split; [exact OKS|]. do 2 (split; [reflexivity|]). split; [symmetry; exact TY|]. split; [reflexivity|]. split; [symmetry; exact A|]. split; [reflexivity|].
  split.
  - rewrite !in_app_iff. tauto.
  - intros W. specialize (HS W). rewrite !in_app_iff. tauto.
Qed.
Print Assumptions C60_mono.

(** C60: equations and window parameters survive the stripping. *)
Theorem C60_contents : forall c g, colour c = true -> gdb_ok c g ->
  firstn (length (g_head g)) (gdb_bytes (strip g)) = firstn (length (g_head g)) (gdb_bytes g) /\
  forall i q, nth_error (g_eqns g) i = Some q -> exists x y, get_equation c i (gdb_bytes g) = Ok x /\
    get_equation (mono_of c) i (gdb_bytes (strip g)) = Ok y /\ q_data y = q_data x /\ q_style y = q_style x /\ q_color y = Some [0].
Proof.
  intros c g C OK. destruct (mono_facts c C) as (p & s & r & S & SM & _).
  assert (OKS : gdb_ok (mono_of c) (strip g)).
  { destruct OK as (p' & s' & r' & S' & H). rewrite S in S'. injection S' as <- <- <-. exists p, s, r. split; [exact SM|]. cbn [strip g_head g_styles g_eqns g_tail]. tauto. }
  split; [unfold gdb_bytes; cbn [strip g_head]; rewrite !firstn_app_exact by reflexivity; reflexivity|].
  intros i q Q. do 2 eexists. split; [apply C59_get; [exact OK|exact Q]|]. split; [apply C59_get; [exact OKS|exact Q]|].
  cbn [q_data q_style q_color strip g_styles]. split; [reflexivity|]. split; [|reflexivity].
  destruct (leads_eq c p s r i S) as [_ ->]. destruct (leads_eq (mono_of c) p s r i SM) as [_ ->]. reflexivity.
Qed.
Print Assumptions C60_contents.
Definition func_ex (tl : option tail) : gdb := Gdb ([133; 0; 0; 16] ++ zeros 66) (zeros 10) (map (fun i => Eqn 3 (repeat 65 i)) [0; 0; 5; 0; 0; 0; 0; 0; 0; 2]%nat) tl.
Definition colour_ex : gdb := func_ex (Some (Tail [56; 52; 67] (zeros 10) [13; 3; 0; 1; 0])).
Definition gdb_entry (c : cls) (d : bytes) : entry := Entry c [13; 0] [8] [97; 0; 0; 0; 0; 0; 0; 0] [0] [128] (Buf true d).
Lemma func_ex_ok tl c : In c [KFunc; KMonoFunc] -> match tl with Some t => length (t_magic t) = 3%nat /\ length (t_colors t) = 10%nat /\ length (t_rest t) = 5%nat | None => True end -> gdb_ok c (func_ex tl).
Proof.
  intros C T. exists 1%nat, 10%nat, 1%nat. split; [destruct C as [<- | [<- | []]]; reflexivity|]. do 3 (split; [reflexivity|]). split; [|exact T].
  unfold func_ex. cbn [g_eqns map]. repeat (constructor; [reflexivity|]). constructor.
Qed.
(** The hypotheses of [C60_mono] are met. *)
Example C60_example : storable (gdb_entry KFunc (gdb_bytes colour_ex)) /\ ~ ambiguous (gdb_entry KFunc (gdb_bytes colour_ex)) /\
  gdb_ok KFunc colour_ex /\ nth_error (g_head colour_ex) 3 = Some 16 /\ le_int (firstn 2 (g_head colour_ex)) = zlen (gdb_bytes colour_ex) - 2 /\
  (exists wn en, entry_new ns0 gv0 ps0 KMonoFunc true (s2l "GDB1") (Some 0) None [] = (wn, Ok en)) /\
  (exists w e', gdb_mono ns0 gv0 ps0 (gdb_entry KFunc (gdb_bytes colour_ex)) = (w, Ok e') /\ w = [WDataLength; WSized] /\
     e' = with_version (gdb_entry KMonoFunc (gdb_bytes (func_ex None))) [0]).
Proof.
  split; [|split; [|split; [|split; [|split; [|split]]]]].
  - constructor; try (eexists; split; [reflexivity|unfold is_byte; lia]); try reflexivity; try (right; reflexivity); discriminate.
  - intros [_ X]. discriminate X.
  - apply func_ex_ok; [now left|repeat split; reflexivity].
  - reflexivity.
  - reflexivity.
  - do 2 eexists. vm_compute. reflexivity.
  - do 2 eexists. split; [vm_compute; reflexivity|]. split; [reflexivity|]. vm_compute. reflexivity.
Qed.
(** Through the generic loader every GDB longer than the fixed part becomes a
    colour GDB, with or without colours. *)
Theorem C60_generic_class : forall ps e c, e_cls e = KEntry -> e_type e = [8] -> 61 < zlen (calc_data e) ->
  colour c = true -> gdb_mode_id (calc_data e) = mode_value c -> coerce ps e = oret (with_cls e c).
Proof.
  intros ps e c C T L CO M. unfold coerce. rewrite C. unfold coerce_base. rewrite (type_id_byte e 8 T) by (unfold is_byte; lia). rewrite obind_lift.
  change (get_type 8) with (Some KMonoGDB). change (coerce_mono_gdb (with_cls e KMonoGDB) = oret (with_cls e c)).
  unfold coerce_mono_gdb. change (e_cls (with_cls e KMonoGDB)) with KMonoGDB. change (calc_data (with_cls e KMonoGDB)) with (calc_data e).
  assert (X : get_color_data KMonoGDB (calc_data e) <> []).
  { unfold get_color_data. change (num_equations KMonoGDB) with 0%nat. change (gdb_offset KMonoGDB + Z.of_nat (num_styles KMonoGDB)) with 61. cbn [skip_equations].
    rewrite py_slice_from by lia. intros E. apply (f_equal (@length Z)) in E. rewrite skipn_length in E. unfold zlen in L. cbn [length] in E. lia. }
  destruct (get_color_data KMonoGDB (calc_data e)) as [|b l]; [congruence|]. unfold coerce_gdb. change (calc_data (with_cls (with_cls e KMonoGDB) KGDB)) with (calc_data e). rewrite M.
  destruct c; try discriminate CO; reflexivity.
Qed.
Print Assumptions C60_generic_class.
(** So mono() of a generically loaded monochrome GDB cuts off equations. *)
Theorem C60_generic_refuted : exists g w w' e e', gdb_ok KMonoFunc g /\ g_tail g = None /\
  entry_load ps0 KEntry (image_of (gdb_entry KMonoFunc (gdb_bytes g))) = (w, Ok e) /\ e_cls e = KFunc /\ calc_data e = gdb_bytes g /\
  gdb_mono ns0 gv0 ps0 e = (w', Ok e') /\ calc_data e' <> gdb_bytes g /\ get_equation KMonoFunc 9 (calc_data e') <> get_equation KMonoFunc 9 (gdb_bytes g).
Proof.
  exists (func_ex None). do 4 eexists. split; [apply func_ex_ok; [right; now left|exact I]|]. split; [reflexivity|]. split; [vm_compute; reflexivity|]. split; [reflexivity|]. split; [vm_compute; reflexivity|].
  split; [vm_compute; reflexivity|]. split; intros X; vm_compute in X; discriminate X.
Qed.
Print Assumptions C60_generic_refuted.

(** C61: every field lies inside the payload. *)
Theorem C61_inside : forall c n name v, size_ok c n -> In (name, v) (fields c) ->
  exists lo hi, resolves (v_start v) (v_stop v) n lo hi /\ lo < hi.
Proof.
  intros c n name v S I. destruct (size_ok_min c n S) as [M _]. pose proof (fields_inside c) as F. rewrite forallb_forall in F. specialize (F _ I). cbn [snd] in F. apply andb_prop in F as [F _].
  exact (inside_resolves _ n v F M).
Qed.
Print Assumptions C61_inside.
(** Distinct fields do not overlap. *)
Theorem C61_disjoint : forall c n a v b w lo hi lo' hi', size_ok c n -> In (a, v) (fields c) -> In (b, w) (fields c) -> a <> b ->
  resolves (v_start v) (v_stop v) n lo hi -> resolves (v_start w) (v_stop w) n lo' hi' -> hi <= lo' \/ hi' <= lo.
Proof.
  intros c n a v b w lo hi lo' hi' S IV IW NE RV RW. destruct (size_ok_min c n S) as [M _]. pose proof (fields_inside c) as F. rewrite forallb_forall in F.
  pose proof (F _ IV) as FV. pose proof (F _ IW) as FW. cbn [snd] in FV, FW. apply andb_prop in FV as [FV _]. apply andb_prop in FW as [FW _].
  pose proof (fields_apart c) as A. rewrite forallb_forall in A. specialize (A _ IV). rewrite forallb_forall in A. specialize (A _ IW). cbn [fst snd] in A.
  apply orb_prop in A as [A | A]; [apply leqb_spec in A; contradiction|]. exact (apart_disjoint _ n v w lo hi lo' hi' FV FW A M RV RW).
Qed.
Print Assumptions C61_disjoint.
(** Field names are distinct. *)
Theorem C61_names : forall c, NoDup (map fst (fields c)).
Proof. exact fields_names. Qed.
Print Assumptions C61_names.
(** Setting a field writes the value, cut or zero-padded to the field's width, in
    the field's range and changes no other field. *)
Theorem C61_set : forall e D name v x, e_data e = Buf true D -> size_ok (e_cls e) (zlen D) -> In (name, v) (fields (e_cls e)) ->
  exists w e' lo hi y, set_field e v x = (w, Ok e') /\ resolves (v_start v) (v_stop v) (zlen D) lo hi /\ fitted (Z.to_nat (hi - lo)) x y /\
    w = (if hi - lo <? zlen x then [WTooWide] else []) /\ get_field e' v = y /\ patched D lo hi y (calc_data e') /\
    (forall b u, In (b, u) (fields (e_cls e)) -> b <> name -> get_field e' u = get_field e u).
Proof.
  intros e D name v x ED S I. destruct (C61_inside _ _ _ _ S I) as (lo & hi & R & LT). destruct (size_ok_min _ _ S) as [M CL].
  pose proof (fields_inside (e_cls e)) as F. rewrite forallb_forall in F. specialize (F _ I). cbn [snd] in F. apply andb_prop in F as [_ F].
  destruct (view_set_fits (calc_length (e_cls e)) v D lo hi x R CL) as (y & l' & E & FT & P). { destruct (view_length _ v); congruence. }
  assert (ZY : zlen y = hi - lo). { destruct FT as [L _]. unfold zlen. rewrite L. lia. }
  exists (if hi - lo <? zlen x then [WTooWide] else []), (with_data e (Buf true l')), lo, hi, y.
  split. { unfold set_field. rewrite ED, E. unfold obind, oret. now rewrite app_nil_r. }
  split; [exact R|]. split; [exact FT|]. split; [reflexivity|]. split; [exact (slice_get_patched D _ _ lo hi y l' R ZY P)|]. split; [exact P|].
  intros b u IU NB. destruct (C61_inside _ _ _ _ S IU) as (lo' & hi' & R' & _). pose proof (C61_disjoint _ _ _ _ _ _ _ _ _ _ S IU I NB R' R) as DJ.
  unfold get_field, view_get. rewrite ED. cbn [with_data e_data b_data]. destruct P as [PL PN].
  assert (ZL : zlen l' = zlen D) by (unfold zlen; now rewrite PL). pose proof (resolves_slice _ _ _ _ _ R') as [E1 E2]. unfold py_slice. rewrite ZL, E1, E2.
  destruct R as (_ & _ & B1 & B2 & _). destruct R' as (_ & _ & B3 & B4 & _). apply nth_error_ext. intros i. unfold zlen in *.
  destruct (Nat.lt_ge_cases i (Z.to_nat (hi' - lo'))) as [L | G].
  - rewrite !nth_error_firstn_lt by exact L. rewrite !nth_error_skipn, PN. destruct ((lo <=? Z.of_nat (Z.to_nat lo' + i)) && (Z.of_nat (Z.to_nat lo' + i) <? hi)) eqn:B; [lia|reflexivity].
  - rewrite !nth_error_firstn_ge by exact G. reflexivity.
Qed.
Print Assumptions C61_set.
(** A nine-byte real written to a settings or GDB parameter reads back. *)
Theorem C61_read_back : forall e D name v x, e_data e = Buf true D -> size_ok (e_cls e) (zlen D) -> In (name, v) (fields (e_cls e)) ->
  v_stop v = option_map (fun a => a + 9) (v_start v) -> length x = 9%nat -> exists e', set_field e v x = ([], Ok e') /\ get_field e' v = x.
Proof.
  intros e D name v x ED S I ST L. destruct (C61_set e D name v x ED S I) as (w & e' & lo & hi & y & E & R & FT & W & G & _).
  assert (H : hi - lo = 9).
  { pose proof (fields_inside (e_cls e)) as F. rewrite forallb_forall in F. specialize (F _ I). cbn [snd] in F. apply andb_prop in F as [F _]. unfold inside, end_of in F.
    destruct R as (-> & -> & _). destruct (v_start v) as [a|]; [|discriminate F]. cbn [option_map] in ST. rewrite ST in *. destruct (a <? 0) eqn:A; destruct (a + 9 <? 0) eqn:B; lia. }
  rewrite H in *. replace (9 <? zlen x) with false in W by (unfold zlen; rewrite L; reflexivity). subst w. exists e'. split; [exact E|]. rewrite G.
  apply (fitted_exact x y). rewrite L. exact FT.
Qed.
Print Assumptions C61_read_back.
(** The settings parameters tile the payload behind the header bytes. *)
Theorem C61_tiles : forall c i, In (c, i) (map (pair KWindow) (seq 3 207) ++ map (pair KRecallWindow) (seq 2 207) ++ map (pair KTable) (seq 2 18)) ->
  exists name a, In (name, View (Some a) (Some (a + 9))) (fields c) /\ a <= Z.of_nat i < a + 9.
Proof.
  assert (G : forallb (fun p => existsb (fun f => match v_start (snd f), v_stop (snd f) with Some a, Some b => (b =? a + 9) && (a <=? Z.of_nat (snd p)) && (Z.of_nat (snd p) <? a + 9) | _, _ => false end) (fields (fst p)))
     (map (pair KWindow) (seq 3 207) ++ map (pair KRecallWindow) (seq 2 207) ++ map (pair KTable) (seq 2 18)) = true) by (vm_compute; reflexivity).
  rewrite forallb_forall in G. intros c i H. specialize (G _ H). apply existsb_exists in G as ([nm [vs ve]] & IN & P). cbn [fst snd v_start v_stop] in *.
  destruct vs as [a|]; [|discriminate P]. destruct ve as [b|]; [|discriminate P]. exists nm, a. assert (b = a + 9) by lia. subst b. split; [exact IN|lia].
Qed.
Print Assumptions C61_tiles.
Example C61_example : exists e', set_field (Entry KTable [13; 0] [17] (zeros 8) [0] [0] (Buf true ([18; 0] ++ repeat 1 9 ++ repeat 2 9))) (View (Some 2) (Some 11)) (repeat 7 9) = ([], Ok e') /\
  calc_data e' = [18; 0] ++ repeat 7 9 ++ repeat 2 9 /\ In (s2l "TblMin", View (Some 2) (Some 11)) (fields KTable).
Proof. eexists. split; [vm_compute; reflexivity|]. split; [reflexivity|]. now left. Qed.

(** C62: a settings dictionary is refused by [load_dict]. *)
Theorem C62_refuted : forall c e, In c [KWindow; KRecallWindow; KTable] -> settings_dict c <> [] /\
  settings_load_dict (map fst (settings_dict c)) e = oerr ValueError.
Proof. intros c e [<- | [<- | [<- | []]]]; (split; [discriminate|reflexivity]). Qed.
Print Assumptions C62_refuted.
(** No dictionary changes a settings entry. *)
Theorem C62_inert : forall keys e w e', settings_load_dict keys e = (w, Ok e') -> e' = e.
Proof.
  induction keys as [|k keys IH]; intros e w e' H; [now injection H|]. cbn [settings_load_dict] in H. destruct k as [|a [|b [|? ?]]]; try discriminate H.
  apply obind_ok in H as (? & ? & ? & _ & H & _). eapply IH. exact H.
Qed.
Print Assumptions C62_inert.
Example C62_example : settings_load_dict [s2l "ab"] flashless = ([WSettings], Ok flashless).
Proof. reflexivity. Qed.

(** C82: constructing a colour GDB from the bytes of one overwrites two colours. *)
Lemma set_enum_neg e D a b x : e_data e = Buf true D -> 5 <= zlen D -> - 5 <= a -> b = a + 1 -> b < 0 -> In x graph_colors ->
  exists D', set_enum_view e (View (Some a) (Some b)) graph_colors x = ([], Ok (with_data e (Buf true D'))) /\ patched D (zlen D + a) (zlen D + a + 1) [x] D'.
Proof.
  intros ED L A B N I. subst b. assert (R : resolves (Some a) (Some (a + 1)) (zlen D) (zlen D + a) (zlen D + a + 1)).
  { unfold resolves. replace (a <? 0) with true by lia. replace (a + 1 <? 0) with true by lia. lia. }
  assert (E : enum_set graph_colors x = oret [x]). { cbn in I. repeat (destruct I as [<- | I]; [reflexivity|]). destruct I. }
  destruct (view_set_frame None (View (Some a) (Some (a + 1))) D _ _ [x] R (or_introl eq_refl)) as (D' & V & P & _). { change (zlen [x]) with 1. lia. }
  exists D'. split; [|exact P]. unfold set_enum_view. rewrite E, ED, V. reflexivity.
Qed.
Theorem C82_overwrites : forall ns gv ps c name input w e D, sized_init ns gv ps c name input = (w, Ok e) -> e_data e = Buf true D -> 5 <= zlen D ->
  exists D', color_gdb_init ns gv ps c name input = (w, Ok (with_data e (Buf true D'))) /\ length D' = length D /\
    nth_error D' (length D - 4) = Some 3 /\ nth_error D' (length D - 5) = Some 13 /\
    (forall i, i <> (length D - 4)%nat -> i <> (length D - 5)%nat -> nth_error D' i = nth_error D i).
Proof.
  intros ns gv ps c name input w e D S ED L. unfold color_gdb_init. rewrite S. cbn [obind].
  destruct (set_enum_neg e D (-4) (-3) 3 ED L) as (D1 & E1 & P1); [lia|lia|lia|cbn; tauto|]. rewrite E1. cbn [obind].
  destruct P1 as [L1 N1]. assert (Z1 : zlen D1 = zlen D) by (unfold zlen; now rewrite L1).
  destruct (set_enum_neg (with_data e (Buf true D1)) D1 (-5) (-4) 13 eq_refl) as (D2 & E2 & P2); [lia|lia|lia|lia|cbn; tauto|]. rewrite E2. destruct P2 as [L2 N2]. rewrite Z1 in N2.
  exists D2. split; [cbn [with_data app]; now rewrite app_nil_r|]. split; [congruence|]. unfold zlen in *.
  split; [|split].
  - rewrite N2. destruct ((Z.of_nat (length D) + -5 <=? _) && _) eqn:B; [lia|]. rewrite N1. destruct ((Z.of_nat (length D) + -4 <=? _) && _) eqn:C; [|lia]. replace (_ - _)%nat with 0%nat by lia. reflexivity.
  - rewrite N2. destruct ((Z.of_nat (length D) + -5 <=? _) && _) eqn:B; [|lia]. replace (_ - _)%nat with 0%nat by lia. reflexivity.
  - intros i A B. rewrite N2. destruct ((Z.of_nat (length D) + -5 <=? _) && _) eqn:C1; [lia|]. rewrite N1. destruct ((Z.of_nat (length D) + -4 <=? _) && _) eqn:C2; [lia|reflexivity].
Qed.
Print Assumptions C82_overwrites.
Definition tinted : gdb := func_ex (Some (Tail [56; 52; 67] (zeros 10) [7; 9; 0; 1; 0])).
Theorem C82_refuted : exists e w e', storable e /\ ~ ambiguous e /\ gdb_ok (e_cls e) tinted /\ calc_data e = gdb_bytes tinted /\
  color_gdb_init ns0 gv0 ps0 (e_cls e) (s2l "GDB1") (image_of e) = (w, Ok e') /\ w = [] /\
  get_field e (View (Some (-4)) (Some (-3))) = [9] /\ get_field e' (View (Some (-4)) (Some (-3))) = [3] /\
  get_field e (View (Some (-5)) (Some (-4))) = [7] /\ get_field e' (View (Some (-5)) (Some (-4))) = [13].
Proof.
  exists (gdb_entry KFunc (gdb_bytes tinted)). do 2 eexists. split.
  { constructor; try (eexists; split; [reflexivity|unfold is_byte; lia]); try reflexivity; try (right; reflexivity); discriminate. }
  split; [intros [_ X]; discriminate X|]. split; [apply func_ex_ok; [now left|repeat split; reflexivity]|]. split; [reflexivity|].
  split; [vm_compute; reflexivity|]. repeat split; vm_compute; reflexivity.
Qed.
Print Assumptions C82_refuted.
Example C82_example : exists e D', sized_init ns0 gv0 ps0 KFunc (s2l "GDB1") (image_of (gdb_entry KFunc (gdb_bytes tinted))) = ([], Ok e) /\
  e_data e = Buf true (gdb_bytes tinted) /\
  color_gdb_init ns0 gv0 ps0 KFunc (s2l "GDB1") (image_of (gdb_entry KFunc (gdb_bytes tinted))) = ([], Ok (with_data e (Buf true D'))) /\
  skipn (length D' - 5) D' = [13; 3] ++ skipn (length D' - 3) (gdb_bytes tinted).
Proof. eexists _, _. split; [vm_compute; reflexivity|]. split; [vm_compute; reflexivity|]. split; [vm_compute; reflexivity|]. vm_compute. reflexivity. Qed.

(** C83: the names in a GDB's dictionary. *)
Theorem C83_names : forall c k a, In (k, a) (gdb_settings_dict c) -> k = a \/ (k = s2l "vnMin" /\ a = s2l "vnMinp1" /\ shape c = Some (10, 3, 1)%nat).
Proof.
  intros c k a H. destruct c; cbn in H; try contradiction;
    repeat (destruct H as [H | H]; [injection H as <- <-; first [left; reflexivity|right; repeat split; reflexivity]|]); destruct H.
Qed.
Print Assumptions C83_names.
(** The names are fields of the class, so each value shown is a parameter. *)
Theorem C83_fields : forall c k a, In (k, a) (gdb_settings_dict c) -> In k (map fst (fields c)) /\ In a (map fst (fields c)).
Proof.
  assert (G : forall c, forallb (fun p => existsb (leqb (fst p)) (map fst (fields c)) && existsb (leqb (snd p)) (map fst (fields c))) (gdb_settings_dict c) = true) by (intros c; destruct c; vm_compute; reflexivity).
  intros c k a H. specialize (G c). rewrite forallb_forall in G. specialize (G _ H). cbn [fst snd] in G. apply andb_prop in G as [A B].
  apply existsb_exists in A as (x & X & Y). apply existsb_exists in B as (x' & X' & Y'). apply leqb_spec in Y, Y'. now subst.
Qed.
Print Assumptions C83_fields.
Theorem C83_refuted : exists c k a, In (k, a) (gdb_settings_dict c) /\ k <> a /\ In (k, View (Some 88) (Some 97)) (fields c) /\ In (a, View (Some 115) (Some 124)) (fields c).
Proof. exists KSeq, (s2l "vnMin"), (s2l "vnMinp1"). split; [cbn; tauto|]. split; [discriminate|]. split; cbn; tauto. Qed.
Print Assumptions C83_refuted.
Example C83_example : In (s2l "Xres", s2l "Xres") (gdb_settings_dict KMonoFunc).
Proof. now left. Qed.

(** C84: assigning an equation never touches the length word, so a different equation
    size makes it wrong. *)
Theorem C84_stale : forall e g i q st co old, gdb_ok (e_cls e) g -> e_data e = Buf true (gdb_bytes g) -> nth_error (g_eqns g) i = Some old ->
  length_field e = zlen (calc_data e) - 2 -> zlen (x_body q) <> zlen (x_body old) ->
  exists e', put_equation e i (Geq (eqn_bytes q) (Some [st]) (Some [co])) = ([], Ok e') /\ length_field e' = length_field e /\
    zlen (calc_data e') = zlen (calc_data e) - zlen (x_body old) + zlen (x_body q) /\ length_field e' <> zlen (calc_data e') - 2.
Proof.
  intros e g i q st co old OK D Q LW NE. assert (I : (i < length (g_eqns g))%nat) by (apply nth_error_Some; congruence).
  eexists. split; [exact (C59_set e g i q st co OK D I)|]. pose proof OK as (p & s & r & S & LH & LS & LE & _ & TK).
  set (g' := assign (e_cls e) i q st co g).
  assert (LF : length_field (with_data e (Buf true (gdb_bytes g'))) = length_field e).
  { unfold length_field. rewrite D. cbn [with_data e_cls e_data]. unfold view_get. cbn [b_data].
    replace (length_view (e_cls e)) with (View (Some 0) (Some 2)) by (destruct (e_cls e); try discriminate S; reflexivity). cbn [v_start v_stop].
    assert (G : forall rest, integer_get (py_slice (g_head g ++ rest) (Some 0) (Some 2)) = integer_get (firstn 2 (g_head g))).
    { intros rest. rewrite py_slice_nn by (rewrite ?zlen_app; pose proof (zlen_nonneg rest); unfold zlen at 1 || idtac; unfold zlen in *; lia). change (Z.to_nat (2 - 0)) with 2%nat. change (skipn (Z.to_nat 0) ?l) with l.
      rewrite firstn_app, LH. change (2 - (61 + 9 * p))%nat with 0%nat. cbn [firstn]. now rewrite app_nil_r. }
    unfold gdb_bytes. change (g_head g') with (g_head g). rewrite !G. reflexivity. }
  assert (CL : forall (l : list eqn), zlen (concat (map eqn_bytes l)) = zsum (map (fun x => 3 + zlen (x_body x)) l)).
  { induction l as [|x l IH]; [reflexivity|]. cbn [map concat]. rewrite zlen_app, IH. unfold zsum. cbn [fold_right]. unfold eqn_bytes, le16, zlen. cbn [length app]. lia. }
  assert (RS : forall (l : list eqn) k o, nth_error l k = Some o -> zsum (map (fun x => 3 + zlen (x_body x)) (put k q l)) = zsum (map (fun x => 3 + zlen (x_body x)) l) - zlen (x_body o) + zlen (x_body q)).
  { induction l as [|x l IH]; intros [|k] o H; try discriminate H.
    - injection H as ->. unfold put, zsum. cbn [firstn skipn app map fold_right]. lia.
    - specialize (IH k o H). unfold put, zsum in *. cbn [firstn skipn app map fold_right] in *. lia. }
  assert (LEN : zlen (gdb_bytes g') = zlen (gdb_bytes g) - zlen (x_body old) + zlen (x_body q)).
  { unfold gdb_bytes. rewrite !zlen_app, !CL. change (g_head g') with (g_head g). change (g_eqns g') with (replace_at i q (g_eqns g)). rewrite <- put_replace by exact I. rewrite (RS _ _ _ Q).
    assert (A : zlen (g_styles g') = zlen (g_styles g)) by (unfold g', assign; cbn [g_styles]; destruct (leads (e_cls e) i); unfold zlen; rewrite ?replace_length; reflexivity).
    assert (B : zlen (tail_bytes (g_tail g')) = zlen (tail_bytes (g_tail g))).
    { unfold g', assign. cbn [g_tail]. destruct (g_tail g) as [t|]; [|reflexivity]. destruct TK as (LM & _ & _). cbn [option_map tail_bytes t_magic t_colors t_rest]. unfold zlen. rewrite !app_length, LM. destruct (leads (e_cls e) i); rewrite ?replace_length; reflexivity. }
    rewrite A, B. lia. }
  split; [exact LF|]. change (calc_data (with_data e (Buf true (gdb_bytes g')))) with (gdb_bytes g'). replace (calc_data e) with (gdb_bytes g) in * by (unfold calc_data; now rewrite D).
  split; [exact LEN|]. rewrite LF, LW, LEN. lia.
Qed.
Print Assumptions C84_stale.
Theorem C84_refuted : exists e i v e', length_field e = zlen (calc_data e) - 2 /\ gdb_ok (e_cls e) colour_ex /\ calc_data e = gdb_bytes colour_ex /\
  put_equation e i v = ([], Ok e') /\ length_field e' <> zlen (calc_data e') - 2.
Proof.
  exists (gdb_entry KFunc (gdb_bytes colour_ex)), 0%nat, (Geq [3; 2; 0; 66; 67] (Some [0]) (Some [0])). eexists.
  split; [reflexivity|]. split; [apply C60_example|]. split; [reflexivity|]. split; [vm_compute; reflexivity|]. intros X; vm_compute in X; discriminate X.
Qed.
Print Assumptions C84_refuted.
Example C84_example : length_field (gdb_entry KFunc (gdb_bytes colour_ex)) = 133 /\
  exists e', put_equation (gdb_entry KFunc (gdb_bytes colour_ex)) 0 (Geq [3; 2; 0; 66; 67] (Some [0]) (Some [0])) = ([], Ok e') /\
    length_field e' = 133 /\ zlen (calc_data e') - 2 = 135.
Proof. split; [vm_compute; reflexivity|]. eexists. split; [vm_compute; reflexivity|]. split; vm_compute; reflexivity. Qed.
