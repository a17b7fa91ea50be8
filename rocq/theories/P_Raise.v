(** C164: which errors opening arbitrary bytes can raise. *)
From Verif Require Import L_Base M_Data M_Flags M_Models M_Class M_Var S_Data L_Data L_Flags S_Var L_Models P_Models L_Var L_VarFile L_Radical L_Complex P_Var P_Cut P_Resave P_Settle.

(** Where the data of an entry start, among its bytes padded to seventeen: after the second
    length word, or after the first two of the flash bytes if these repeat the length. *)
Definition data_start (d : bytes) : nat :=
  if (le_int (firstn 2 d) =? 11) || ((le_int (firstn 2 d) =? 13) && leqb (firstn 2 (skipn 13 d)) (firstn 2 (skipn 2 d))) then 15 else 17.
Definition payload_of (d : bytes) : bytes := firstn (Z.to_nat (le_int (firstn 2 (skipn 2 d)))) (skipn (data_start d) d).
Definition padded (d : bytes) : bytes := d ++ zeros (17 - length d).

Lemma warn_if_pair b x : owarn_if b x = (if b then [x] else [], Ok tt).
Proof. unfold owarn_if, owarn. now destruct b. Qed.
Lemma warn_twice {A} u1 u2 (k : out A) : obind (u1, Ok tt) (fun _ => obind (u2, Ok tt) (fun _ => k)) = obind (u1 ++ u2, Ok tt) (fun _ => k).
Proof. destruct k as [w r]. cbn. now rewrite app_assoc. Qed.
(** What has been read when the class of the entry is looked up. *)
Lemma load_reads ps d : wf_bytes d -> exists w x v, e_cls x = KEntry /\ e_type x = [nth 4 (padded d) 0] /\ e_data x = Buf true (payload_of (padded d)) /\
  e_version x = [v] /\ is_byte v /\ entry_load ps KEntry d = obind (w, Ok tt) (fun _ => finish ps x).
Proof.
  intros W0. unfold entry_load. change (ljust 17 d) with (padded d).
  assert (W : wf_bytes (padded d)) by (apply Forall_app; split; [exact W0|apply Forall_forall; intros z I; apply repeat_spec in I; subst z; unfold is_byte; lia]).
  assert (L : (17 <= length (padded d))%nat) by (unfold padded, zeros; rewrite app_length, repeat_length; lia).
  generalize dependent (padded d). clear W0 d. intros d W L.
  do 17 (destruct d as [|? d]; [exfalso; cbn in L; lia|]). clear L.
  assert (WB : forall x, In x (z :: z0 :: z1 :: z2 :: z3 :: z4 :: z5 :: z6 :: z7 :: z8 :: z9 :: z10 :: z11 :: z12 :: z13 :: z14 :: z15 :: d) -> is_byte x) by (now apply Forall_forall).
  assert (B3 : is_byte z3) by (apply WB; cbn; tauto). assert (B12 : is_byte z12) by (apply WB; cbn; tauto).
  assert (BZ : is_byte z /\ is_byte z0) by (split; apply WB; cbn; tauto). clear WB W.
  cbn [rd app firstn skipn nth]. rewrite (type_id_byte _ z3) by auto. rewrite obind_lift.
  change (type_check KEntry z3) with (@oret unit tt). rewrite obind_oret.
  unfold payload_of, data_start. cbn [firstn skipn].
  assert (MM : (le_int [z; z0] = 13 /\ z = 13 /\ z0 = 0) \/ (le_int [z; z0] = 11 /\ z = 11 /\ z0 = 0) \/ ((le_int [z; z0] =? 13) = false /\ (le_int [z; z0] =? 11) = false)).
  { clear - BZ. unfold is_byte in *. cbn [le_int]. lia. }
  destruct MM as [(M & -> & ->)|[(M & -> & ->)|(M1 & M2)]].
  - change (meta_length _ =? 13) with true. change (le_int [13; 0] =? 11) with false. change (le_int [13; 0] =? 13) with true. cbn [orb andb].
    cbv iota beta. rewrite obind_oret. change ([z12] ++ [z13]) with [z12; z13]. change (meta_length _ =? 13) with true. cbn [andb].
    destruct (leqb [z12; z13] [z1; z2]) eqn:EQ; cbv iota.
    + cbn [skipn]. 
      match goal with |- context [set_meta_length ?e 11] => assert (SM : exists u, set_meta_length e 11 = (u, Ok (Entry KEntry [11; 0] [z3] [z4; z5; z6; z7; z8; z9; z10; z11] [z12] [z13] (Buf true [])))) by (eexists; vm_compute; reflexivity) end.
      destruct SM as [u ->]. unfold owarn. cbn [obind oret with_version with_archived e_cls e_meta e_type e_name e_version e_archived e_data]. rewrite warn_if_pair.
      do 2 eexists. exists 0. split; [|split; [|split; [|split; [|split; [|]]]]]; [..|apply warn_twice]; try reflexivity. unfold is_byte; lia.
    + cbn [skipn]. rewrite !warn_if_pair. cbn [obind oret]. rewrite !warn_if_pair.
      do 2 eexists. exists z12. split; [|split; [|split; [|split; [|split; [|]]]]]; [..|apply warn_twice]; try reflexivity. exact B12.
  - change (meta_length _ =? 13) with false. change (le_int [11; 0] =? 11) with true. cbn [orb].
    match goal with |- context [meta_length ?e =? 11] => change (meta_length e =? 11) with true end. cbv iota. rewrite obind_oret.
    change (meta_length _ =? 13) with false. cbn [andb skipn]. rewrite !warn_if_pair. cbn [obind oret]. rewrite !warn_if_pair.
    do 2 eexists. exists 0. split; [|split; [|split; [|split; [|split; [|]]]]]; [..|apply warn_twice]; try reflexivity. unfold is_byte; lia.
  - rewrite M1, M2. cbn [orb andb]. 
    repeat match goal with |- context [meta_length ?e =? ?k] => change (meta_length e) with (le_int [z; z0]) end. rewrite M1, M2. cbv iota.
    rewrite obind_assoc. unfold owarn. 
    assert (K : forall (A : Type) (f : bytes * bytes * bytes -> out A) y, obind ([WMetaLength], Ok tt) (fun _ => obind (oret y) f) = obind ([WMetaLength], Ok tt) (fun _ => f y))
      by (intros; apply obind_ext; intros; apply obind_oret).
    rewrite K. clear K. cbv beta iota.
    repeat match goal with |- context [meta_length ?e =? 13] => change (meta_length e) with (le_int [z; z0]) end. rewrite M1. cbn [andb skipn].
    rewrite !warn_if_pair.
    assert (K : forall (A : Type) u1 u2 (y : entry * bytes) (f : entry * bytes -> out A), obind (obind (u1, Ok tt) (fun _ => obind (u2, Ok tt) (fun _ => oret y))) f = obind (u1 ++ u2, Ok tt) (fun _ => f y)).
    { intros A u1 u2 y f. cbn. rewrite app_nil_r. reflexivity. }
    rewrite K. clear K. cbv beta iota. rewrite warn_if_pair, warn_twice.
    do 2 eexists. exists z12. split; [|split; [|split; [|split; [|split; [|]]]]]; [..|apply warn_twice]; try reflexivity. exact B12.
Qed.

(** Looking up the class of an entry: which errors there are. *)
Lemma graphed_flags l : wf_bytes l -> (length l <= 1)%nat -> exists u, flags_set (flags_ior (flags_get l) [(5, 1)]) = Ok u.
Proof.
  intros W L. destruct l as [|b [|? ?]]; [eexists; vm_compute; reflexivity| |exfalso; cbn in L; lia].
  assert (F : forallb (fun b => match flags_set (flags_ior (flags_get [b]) [(5, 1)]) with Ok _ => true | _ => false end) (map Z.of_nat (seq 0 256)) = true) by (vm_compute; reflexivity).
  rewrite forallb_forall in F. specialize (F b). inversion W; subst. specialize (F (in_range b 256 H1)). destruct (flags_set _); [eauto|discriminate F].
Qed.
Lemma complex_classes t : complex_type t -> exists c, get_type t = Some c /\ issubclass c KProgram = false /\ cls_eqb c KGraphedEquation = false /\ issubclass c KList = false /\ issubclass c KComplexEntry = true.
Proof. unfold complex_type. cbn [In]. intros [<-|[<-|[<-|[<-|[<-|[]]]]]]; eexists; split; try reflexivity; repeat split. Qed.
Lemma list_classes t : list_type t -> exists c, get_type t = Some c /\ issubclass c KProgram = false /\ cls_eqb c KGraphedEquation = false /\ issubclass c KList = true /\ (forall x, data (with_cls x c) = skipn 2 (b_data (e_data x))).
Proof.
  unfold list_type. cbn [In]. intros [<-|[<-|[]]]; eexists; (split; [reflexivity|]); repeat split; intros [? ? ? ? ? ? [mu l]]; cbn [with_cls e_data b_data];
  (destruct l as [|? [|? l]]; [reflexivity|reflexivity|]);
  match goal with |- ?a = _ => change a with (py_slice (z :: z0 :: l) (Some 2) None) end;
  rewrite py_slice_from; try reflexivity; rewrite ?zlen_cons; pose proof (zlen_nonneg l); unfold zlen in *; cbn [length]; lia.
Qed.
Lemma coerce_raises ps x t l w y : e_cls x = KEntry -> e_type x = [t] -> is_byte t -> e_data x = Buf true l -> wf_bytes l -> coerce ps x = (w, y) ->
  (list_type t /\ zlen l < 3 /\ y = Err IndexError) \/ (complex_type t /\ zlen l < 10 /\ y = Err ValueError) \/
  (~ (list_type t /\ zlen l < 3) /\ ~ (complex_type t /\ zlen l < 10) /\ exists e, y = Ok e).
Proof.
  intros K T B D W H.
  assert (CL : list_type t -> complex_type t -> False) by (unfold list_type, complex_type; cbn [In]; intros; lia).
  destruct (in_dec Z.eq_dec t [1; 13]) as [HL|HL].
  - pose proof HL as HL'. apply list_classes in HL' as (c & G & N1 & N2 & N3 & DD).
    unfold coerce in H. rewrite K in H. unfold coerce_base in H. rewrite (type_id_byte _ t) in H by auto. rewrite obind_lift, G in H.
    unfold coerce_own in H. cbn [with_cls e_cls] in H. rewrite N1, N2, N3 in H. unfold coerce_list in H.
    change (data {| e_cls := c; e_meta := e_meta x; e_type := e_type x; e_name := e_name x; e_version := e_version x; e_archived := e_archived x; e_data := e_data x |}) with (data (with_cls x c)) in H.
    rewrite DD, D in H. cbn [b_data] in H.
    destruct l as [|a [|b [|d l]]]; cbn [skipn] in H; try (left; split; [exact HL|]; split; [reflexivity|]; unfold oerr in H; congruence).
    right. right. split; [intros [_ Q]; unfold zlen in Q; cbn [length] in Q; lia|]. split; [intros [Q _]; eauto|].
    destruct (get_type (Z.land d 31)) as [c'|]; [destruct (issubclass c' KRealEntry); [|destruct (issubclass c' KComplexEntry)]|]; unfold oret, owarn in H; cbn in H; injection H as _ <-; eauto.
  - destruct (in_dec Z.eq_dec t [12; 27; 29; 30; 31]) as [HC|HC].
    + pose proof HC as HC'. apply complex_classes in HC' as (c & G & N1 & N2 & N3 & N4).
      unfold coerce in H. rewrite K in H. unfold coerce_base in H. rewrite (type_id_byte _ t) in H by auto. rewrite obind_lift, G in H.
      unfold coerce_own in H. cbn [with_cls e_cls] in H. rewrite N1, N2, N3, N4 in H. unfold coerce_complex in H. change (e_data (with_cls x c)) with (e_data x) in H. rewrite D in H.
      destruct (nth_error l 9) as [b|] eqn:N.
      * right. right. assert (L : (9 < length l)%nat) by (apply nth_error_Some; congruence).
        split; [intros [Q _]; eauto|]. split; [intros [_ Q]; unfold zlen in Q; lia|].
        change 9 with (Z.of_nat 9) in H. rewrite (get_bits_at_nth 9 (Buf true l) b N) in H. rewrite obind_lift in H.
        assert (R : 0 <= b mod 64 < 64) by (clear; lia). rewrite (set_type_ok _ t (b mod 64)) in H by auto. rewrite obind_oret in H.
        assert (TB : is_byte (b mod 64)) by (unfold is_byte; lia). rewrite (type_id_byte _ (b mod 64)) in H by auto. rewrite obind_lift in H.
        destruct (get_type (b mod 64)); unfold oret, owarn in H; cbn in H; injection H as _ <-; eauto.
      * right. left. apply nth_error_None in N. split; [exact HC|]. split; [unfold zlen; lia|].
        assert (E : get_bits_at 9 0 6 (Buf true l) = Err ValueError) by (do 10 (destruct l as [|? l]; [reflexivity|]); exfalso; cbn in N; lia).
        rewrite E in H. cbn in H. congruence.
    + right. right. split; [intros [Q _]; exact (HL Q)|]. split; [intros [Q _]; exact (HC Q)|].
      destruct (Z.eq_dec t 35) as [->|NE].
      * unfold coerce in H. rewrite K in H. unfold coerce_base in H. rewrite (type_id_byte _ 35) in H by auto. rewrite obind_lift in H. change (get_type 35) with (Some KGraphedEquation) in H. cbv iota in H.
        change (coerce_own ps (with_cls x KGraphedEquation)) with (coerce_graphed (with_cls x KGraphedEquation)) in H. unfold coerce_graphed in H.
        rewrite (type_id_byte _ 35) in H by auto. rewrite obind_lift in H. cbn [Z.eqb Pos.eqb] in H. cbv iota zeta in H. cbn [with_cls e_data] in H. rewrite D in H.
        destruct (graphed_flags (firstn 1 l)) as [u U]; [now apply wf_firstn|rewrite firstn_length; lia|].
        assert (VG : view_get (View (Some 0) (Some 1)) (Buf true l) = firstn 1 l) by (destruct l as [|? l]; [reflexivity|]; unfold view_get; cbn [v_start v_stop b_data]; rewrite py_slice_nn by (rewrite ?zlen_cons; pose proof (zlen_nonneg l); lia); reflexivity).
        rewrite VG, U in H. unfold view_set at 1 in H. change (option_map Z.to_nat (view_length None (View (Some 0) (Some 1)))) with (Some 1%nat) in H.
        unfold section_set_raw, fit_section in H. rewrite obind_lift in H. cbn [b_mut] in H. unfold owarn_if, owarn in H.
        destruct (Nat.ltb 1 (length u)); cbn [obind oret] in H; rewrite (set_type_ok _ 35 3) in H by (auto; lia); unfold oret in H; cbn in H; injection H as _ <-; eauto.
      * destruct (coerce_same ps x t T B) as (w' & e & C & _).
        { rewrite K, D. cbn [consistent_for b_data]. split; [exact NE|]. split; [intros Q; contradiction|intros Q; contradiction]. }
        rewrite C in H. injection H as _ <-. eauto.
Qed.

Lemma payload_bytes d : wf_bytes d -> wf_bytes (payload_of (padded d)) /\ zlen (payload_of (padded d)) < 65536 /\ is_byte (nth 4 (padded d) 0).
Proof.
  intros W0. assert (W : wf_bytes (padded d)) by (apply Forall_app; split; [exact W0|apply Forall_forall; intros z I; apply repeat_spec in I; subst z; unfold is_byte; lia]).
  assert (L : (17 <= length (padded d))%nat) by (unfold padded, zeros; rewrite app_length, repeat_length; lia).
  split; [now apply wf_firstn, wf_skipn|]. split.
  - pose proof (wf_firstn 2 _ (wf_skipn 2 _ W)) as W2. unfold payload_of. set (n := firstn 2 (skipn 2 (padded d))) in *.
    assert (LN : (length n <= 2)%nat) by (unfold n; rewrite firstn_length; lia). clearbody n.
    assert (N : 0 <= le_int n < 65536).
    { destruct n as [|a [|b [|? ?]]]; [cbn; lia| | |cbn in LN; lia]; inversion W2 as [|? ? B1 W3]; subst; unfold is_byte in *; [cbn [le_int]; lia|]. inversion W3; subst; unfold is_byte in *. cbn [le_int]. lia. }
    unfold zlen. rewrite firstn_length. lia.
  - apply (proj1 (Forall_forall _ _) W). apply nth_In. lia.
Qed.

(** Loading any bytes as an entry raises IndexError exactly for a list of fewer than three
    data bytes, ValueError exactly for a complex number of fewer than ten, and nothing else. *)
Theorem C164_entry : forall ps d w y, wf_bytes d -> entry_load ps KEntry d = (w, y) ->
  let t := nth 4 (padded d) 0 in let p := payload_of (padded d) in
  (list_type t /\ zlen p < 3 /\ y = Err IndexError) \/ (complex_type t /\ zlen p < 10 /\ y = Err ValueError) \/
  (~ (list_type t /\ zlen p < 3) /\ ~ (complex_type t /\ zlen p < 10) /\ exists e, y = Ok e).
Proof.
  intros ps d w y W H. cbv zeta. destruct (payload_bytes d W) as (WP & _ & BT).
  destruct (load_reads ps d W) as (u & x & v & K & T & D & V & Bv & E). rewrite E in H. clear E.
  destruct (coerce ps x) as (wc, rc) eqn:C.
  pose proof (coerce_raises ps x _ _ wc rc K T BT D WP C) as X.
  assert (Y : match rc with Ok _ => exists e, y = Ok e | Err z => y = Err z end).
  { unfold finish in H. rewrite C in H. destruct rc as [e|z]; [|cbn in H; congruence].
    apply coerce_kept in C as (_ & _ & K3 & _). rewrite V in K3. cbn [obind] in H. rewrite (version_byte e v K3 Bv) in H. cbn in H.
    injection H as _ <-. eauto. }
  destruct X as [(A & B & ->)|[(A & B & ->)|(A & B & e & ->)]]; [left; auto|right; left; auto|right; right; auto].
Qed.
Print Assumptions C164_entry.

Lemma coerce_size ps x w e : coerce ps x = (w, Ok e) -> e_cls x = KEntry -> zlen (b_data (e_data e)) <= Z.max 1 (zlen (b_data (e_data x))).
Proof.
  intros H K. unfold coerce in H. rewrite K in H. unfold coerce_base in H. apply obind_ok in H as (? & t & ? & _ & H & _).
  destruct (get_type t) as [c|]; [|inv_ok; lia].
  unfold coerce_own in H. cbn [with_cls e_cls] in H.
  destruct (issubclass c KProgram); [unfold coerce_program in H; inv_ok; cbn; lia|].
  destruct (cls_eqb c KGraphedEquation).
  { unfold coerce_graphed in H. apply obind_ok in H as (? & t2 & ? & _ & H & _). destruct (t2 =? 35); [|inv_ok; cbn; lia].
    cbv zeta in H. apply obind_ok in H as (? & b & ? & V & H & _). apply set_type_one in H as [_ ->]. cbn [with_data e_data].
    unfold view_set in V. apply obind_ok in V as (? & u & ? & S & V & _). cbn [with_cls e_data] in V. destruct (b_mut (e_data x)); [|discriminate V]. injection V as _ <-.
    assert (LU : length u = 1%nat).
    { unfold section_set_raw in S. apply obind_ok in S as (? & q & ? & _ & S & _). change (option_map Z.to_nat (view_length None (View (Some 0) (Some 1)))) with (Some 1%nat) in S.
      unfold fit_section in S. apply obind_ok in S as (? & ? & ? & _ & S & _). injection S as _ <-. destruct q as [|? [|? ?]]; reflexivity. }
    cbn [b_data v_start v_stop]. destruct (b_data (e_data x)) as [|a l].
    - change (py_slice_set [] (Some 0) (Some 1) u) with (u ++ []). rewrite app_nil_r. unfold zlen. lia.
    - rewrite py_slice_set_nn by (rewrite ?zlen_cons; pose proof (zlen_nonneg l); lia). change (Z.to_nat 0) with 0%nat. change (Z.to_nat 1) with 1%nat. cbn [firstn skipn app]. rewrite zlen_app, zlen_cons. unfold zlen at 1. lia. }
  unfold coerce_list, coerce_complex, coerce_picture, coerce_mono_gdb, coerce_gdb in H. inv_ok; try (cbn; lia);
  match goal with S : set_type_id _ _ = _ |- _ => apply set_type_one in S as [_ S]; apply (f_equal (fun b => zlen (b_data b))) in S end; cbn in *; lia.
Qed.
(** The entries of a file always have bytes. *)
Lemma loaded_bytes ps d w e : wf_bytes d -> entry_load ps KEntry d = (w, Ok e) -> exists b, entry_bytes e = Ok b.
Proof.
  intros W H. destruct (payload_bytes d W) as (_ & LP & _). destruct (load_reads ps d W) as (u & x & v & K & T & D & V & Bv & E).
  rewrite E in H. cbn [obind] in H. destruct (finish ps x) as (wf, r) eqn:F. injection H as _ ->.
  unfold finish in F. apply obind_ok in F as (wx & y & ? & C & F & _). inv_ok.
  apply coerce_size in C; [|exact K]. rewrite D in C. cbn [b_data] in C.
  unfold entry_bytes, raw_calc_data_length, calc_data_length, calc_data, to_bytes_le.
  match goal with |- context [fits 2 ?n] => assert (FT : fits 2 n = true) by (apply fits_spec; change (256 ^ Z.of_nat 2) with 65536; pose proof (zlen_nonneg (b_data (e_data e))); lia) end.
  rewrite FT. cbn [rbind]. eauto.
Qed.

Section Load.
  Variable ns : cls -> str -> out bytes.
  Variable gv : entry -> option bytes -> out Z.
  Variable ps : bytes -> option bool.
  Variable order : model -> Z.
  Variable so : list model -> list model.
  Variables (w0 : list warning) (e0 : entry).
  Hypothesis default_made : entry_default ns gv ps = (w0, Ok e0).

Definition has_bytes (e : entry) : Prop := exists b, entry_bytes e = Ok b.
Lemma loop_raises fuel : forall left s v w y, wf_bytes (st_buf s) -> Forall has_bytes (v_entries v) -> load_entries ns gv ps fuel left s v = (w, y) ->
  (exists left' s' v', y = Ok (left', s', v') /\ Forall has_bytes (v_entries v') /\ v_header v' = v_header v /\ v_model v' = v_model v) \/
  (exists d w' x i n, d = firstn n (skipn i (st_buf s)) /\ wf_bytes d /\ entry_load ps KEntry d = (w', Err x) /\ y = Err x).
Proof.
  induction fuel as [|fuel IH]; intros left s v w y W F H; cbn [load_entries] in H; destruct (left <=? 0).
  1-3: unfold oret in H; injection H as _ <-; left; repeat eexists; exact F.
  assert (A : exists wa x, add_entry ns gv ps v None = (wa, Ok (Var (v_header v) (v_entries v ++ [x]) (v_model v)))).
  { unfold add_entry. rewrite default_made. cbn [obind]. destruct (v_entries v) as [|q l]; [cbn; eauto|]. unfold owarn_if, owarn. destruct (negb _); cbn; eauto. }
  destruct A as (wa & x & A). rewrite A in H. cbn [obind] in H.
  destruct (next_entry_length s) as (wn, rn) eqn:N.
  assert (N' : exists len s1, rn = Ok (len, s1) /\ st_buf s1 = st_buf s).
  { unfold next_entry_length in N. destruct (st_read 2 s) as [a t1] eqn:E1. destruct (st_read 2 t1) as [b t2] eqn:E2.
    pose proof (st_read_wf _ _ _ _ E1 W) as [_ B1]. pose proof (st_read_wf _ _ _ _ E2 ltac:(now rewrite B1)) as [_ B2].
    unfold owarn_if, owarn in N. destruct (negb _); cbn in N; injection N as _ <-; do 2 eexists; (split; [reflexivity|]); cbn; congruence. }
  destruct N' as (len & s1 & -> & BS). cbn [obind] in H. cbv beta iota in H.
  destruct (st_read (Z.to_nat len) s1) as [d s2] eqn:R. pose proof (st_read_wf _ _ _ _ R ltac:(now rewrite BS)) as [WD B2].
  destruct (entry_load ps KEntry d) as (we, [e|z]) eqn:EL; cbn [obind] in H.
  - rewrite warn_if_pair in H. cbn [obind] in H.
    match type of H with context [load_entries _ _ _ _ ?l ?s ?v'] => destruct (load_entries ns gv ps fuel l s v') as (wl, rl) eqn:LE end.
    injection H as _ <-. apply IH in LE.
    + destruct LE as [(l' & s' & v' & -> & FF & HH & MM)|LE]; [left; exists l', s', v'; auto|right; cbn [st_buf] in LE; rewrite B2, BS in LE; exact LE].
    + now rewrite B2, BS.
    + cbn [v_entries]. rewrite removelast_snoc. apply Forall_app. split; [exact F|]. constructor; [|constructor]. exact (loaded_bytes ps d we e WD EL).
  - injection H as _ <-. right. apply read_facts in R as (RD & _). rewrite BS in RD. exists d, we, z, (st_pos s1), (Z.to_nat len). auto.
Qed.
(** So opening a file raises only these two errors, and only for such an entry. *)
Theorem C164_file : forall v b w y, wf_bytes b -> snd (model_check order so (v_model v) (header_load (firstn 53 b))) = Ok tt -> var_load ns gv ps order so v b = (w, y) ->
  (exists v', y = Ok v') \/
  (exists d i n, d = firstn n (skipn i b) /\ let t := nth 4 (padded d) 0 in let p := payload_of (padded d) in
    ((list_type t /\ zlen p < 3 /\ y = Err IndexError) \/ (complex_type t /\ zlen p < 10 /\ y = Err ValueError))).
Proof.
  intros v b w y W MC H. unfold var_load in H.
  destruct (st_read 53 (Stream b 0)) as [hd s1] eqn:E1. destruct (st_read 2 s1) as [n s2] eqn:E2.
  pose proof (st_read_wf _ _ _ _ E1 W) as [_ B1]. cbn [st_buf] in B1. pose proof (st_read_wf _ _ _ _ E2 ltac:(now rewrite B1)) as [_ B2].
  apply read_facts in E1 as (HD & _). cbn [st_pos st_buf skipn] in HD.
  match type of H with context [load_entries ns gv ps ?f ?l ?s ?v'] => destruct (load_entries ns gv ps f l s v') as (wl, rl) eqn:LE end.
  apply loop_raises in LE; [|now rewrite B2, B1|constructor].
  destruct LE as [(l' & s' & v' & -> & FF & HH & MM)|(d & w' & x & i & k & DS & WD & EL & ->)].
  - left. cbn [obind] in H. cbv beta iota in H. rewrite warn_if_pair in H. cbn [obind] in H. destruct (st_read 2 s') as [c s4].
    cbn [v_header v_model] in HH, MM. rewrite HH, MM, HD in H.
    destruct (model_check order so (v_model v) (header_load (firstn 53 b))) as (wm, rm). cbn [snd] in MC. subst rm. cbn [obind] in H.
    assert (CK : exists k, checksum v' = Ok k).
    { assert (RM : exists bs, rmapM entry_bytes (v_entries v') = Ok bs).
      { clear - FF. induction FF as [|e es [b E] FF IH]; [eexists; reflexivity|]. destruct IH as [bs IH]. cbn [rmapM]. rewrite E, IH. cbn. eauto. }
      destruct RM as [bs RM]. unfold checksum, to_bytes_le. rewrite RM. cbn [rbind].
      match goal with |- context [fits 2 ?m] => assert (FT : fits 2 m = true); [|rewrite FT; eauto] end.
      apply fits_spec. change (256 ^ Z.of_nat 2) with 65536. change 65535 with (Z.ones 16). rewrite Z.land_ones by lia. change (2 ^ 16) with 65536. lia. }
    destruct CK as [k CK]. rewrite CK in H. cbn [olift obind] in H. rewrite warn_if_pair in H. cbn in H. injection H as _ <-. eauto.
  - right. exists d, i, k. split; [rewrite B2, B1 in DS; exact DS|]. cbn [obind] in H. injection H as _ <-.
    destruct (C164_entry ps d w' _ WD EL) as [X|[X|(_ & _ & e & X)]]; [left|right|discriminate X]; destruct X as (X1 & X2 & X3); (split; [exact X1|]); (split; [exact X2|]); now injection X3 as ->.
Qed.
End Load.
Print Assumptions C164_file.

(** An empty list and half a complex number, each in a file, and a file that consists of
    nothing but a length. *)
Example C164_example : entry_default ns0 gv0 ps0 = ([], Ok (match snd (entry_default ns0 gv0 ps0) with Ok e => e | _ => hello end)) /\
  snd (var_load ns0 gv0 ps0 model_index so0 (Var some_header [] None) (header_bytes some_header ++ [19; 0] ++ entry_image 13 1 (93 :: zeros 7) [0; 0] [0; 0] ++ [1; 0])) = Err IndexError /\
  snd (var_load ns0 gv0 ps0 model_index so0 (Var some_header [] None) (header_bytes some_header ++ [26; 0] ++ entry_image 13 12 (65 :: zeros 7) [0; 0] (12 :: zeros 8) ++ [1; 0])) = Err ValueError /\
  exists w v', var_load ns0 gv0 ps0 model_index so0 (Var some_header [] None) (zeros 53 ++ [9; 0]) = (w, Ok v') /\ length (v_entries v') = 3%nat.
Proof. split; [vm_compute; reflexivity|]. split; [vm_compute; reflexivity|]. split; [vm_compute; reflexivity|]. do 2 eexists. split; [vm_compute; reflexivity|reflexivity]. Qed.
Theorem C164_never_refuted : exists b1 b2, wf_bytes b1 /\ wf_bytes b2 /\
  snd (var_load ns0 gv0 ps0 model_index so0 (Var some_header [] None) b1) = Err IndexError /\
  snd (var_load ns0 gv0 ps0 model_index so0 (Var some_header [] None) b2) = Err ValueError.
Proof.
  exists (header_bytes some_header ++ [19; 0] ++ entry_image 13 1 (93 :: zeros 7) [0; 0] [0; 0] ++ [1; 0]),
    (header_bytes some_header ++ [26; 0] ++ entry_image 13 12 (65 :: zeros 7) [0; 0] (12 :: zeros 8) ++ [1; 0]).
  split; [|split; [|split; vm_compute; reflexivity]]; apply Forall_forall; intros z I; vm_compute in I; unfold is_byte; repeat (destruct I as [<-|I]; [lia|]); destruct I.
Qed.
Print Assumptions C164_never_refuted.
