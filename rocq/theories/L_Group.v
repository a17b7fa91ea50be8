(** Lemmas about groups. *)
From Verif Require Import L_Base M_Data M_Flags M_Models M_Class M_Var M_List M_Group S_Data L_Data S_Var L_Models L_Var L_List S_Group.

Definition is_group (g : entry) (D : bytes) : Prop :=
  exists n v a, g = Entry KGroup [13; 0] [23] n [v] [a] (Buf true (le16 (zlen D) ++ D)) /\ is_byte v.

Lemma group_data g D : is_group g D -> data g = D.
Proof.
  intros (n & v & a & -> & _). unfold data, view_get. cbn [e_cls data_view fst e_data b_data v_start v_stop].
  rewrite py_slice_from by lia. reflexivity.
Qed.
Lemma group_flash g D : is_group g D -> flash_bytes g <> [].
Proof. intros (n & v & a & -> & _). cbn. discriminate. Qed.

Section Groups.
Variable ns : cls -> str -> out bytes.
Variable gv : entry -> option bytes -> out Z.
Variable ps : bytes -> option bool.
Hypothesis NS : okay (ns KEntry (s2l "UNNAMED")).

Lemma blank_new ver b : is_byte ver -> exists w n,
  entry_new ns gv ps KEntry true (s2l "UNNAMED") (Some ver) (Some b) [] =
  (w, Ok (Entry KEntry [13; 0] [255] n [ver] [if b then 128 else 0] (Buf true []))).
Proof.
  intros V. destruct NS as (w & nm & N). unfold entry_new. rewrite N.
  change (meta_convert KEntry None 13) with (@oret bytes [13; 0]). rewrite obind_oret.
  change (type_id_of KEntry) with (@None Z). cbv iota. change (section_set_raw (Some 1%nat) (bits_set 0 8 255 None)) with (@oret bytes [255]).
  rewrite obind_oret. unfold section_set_raw at 1. cbn [obind]. unfold fit_section at 1.
  set (n := ljust 8 _). set (ww := owarn_if _ WTooWide).
  assert (W : exists w', ww = (w', Ok tt)) by (unfold ww, owarn_if, owarn; destruct (Nat.ltb _ _); eexists; reflexivity).
  destruct W as [w' ->]. cbn [obind oret].
  destruct (bits_set_full ver [0] 0 eq_refl) as [ws B]; [unfold is_byte; lia|].
  assert (BN : bits_set 0 8 ver None = (ws, Ok [ver])).
  { rewrite <- (Z.mod_small ver 256) at 2 by exact V. rewrite <- B. reflexivity. }
  rewrite BN. destruct b; clearbody n; eexists; exists n; lazy -[app]; reflexivity.
Qed.

(** The class an empty entry of a given type takes. *)
Lemma blank_coerce t v a n : group_type t ->
  exists w c, coerce ps (Entry KEntry [13; 0] [t] n [v] [a] (Buf true [])) = (w, Ok (Entry c [13; 0] [t] n [v] [a] (Buf true [])))
   /\ c <> KGraphedEquation /\ c <> KMatrix
   /\ (sized_type t -> issubclass c KSized = true)
   /\ (real_type t -> issubclass c KSized = false /\ calc_length c = Some 9)
   /\ (ps [] <> Some true -> get_type t = Some c).
Proof.
  intros H. assert (G : In t [5; 6] \/ ~ In t [5; 6]) by (cbn; lia). destruct G as [G | G].
  - assert (E : exists c, c = (if is_asm ps [] then (if t =? 5 then KAsmProgram else KProtectedAsmProgram) else (if t =? 5 then KProgram else KProtectedProgram)) /\
      coerce ps (Entry KEntry [13; 0] [t] n [v] [a] (Buf true [])) = ([], Ok (Entry c [13; 0] [t] n [v] [a] (Buf true [])))).
    { destruct G as [<- | [<- | []]]; eexists; (split; [reflexivity|]); unfold coerce, coerce_base, coerce_own; cbn [e_cls];
        [change (type_id _) with (@Ok Z 5)|change (type_id _) with (@Ok Z 6)]; rewrite obind_lift;
        [change (get_type 5) with (Some KProgram)|change (get_type 6) with (Some KProtectedProgram)]; cbn [with_cls e_cls];
        [change (issubclass KProgram KProgram) with true|change (issubclass KProtectedProgram KProgram) with true]; cbv iota; unfold coerce_program;
        change (data _) with (@nil Z); cbn [e_cls is_tokenized negb];
        [change (type_id _) with (@Ok Z 5)|change (type_id _) with (@Ok Z 6)]; rewrite obind_lift; destruct (is_asm ps []); reflexivity. }
    destruct E as (c & C & E). exists [], c. split; [exact E|].
    assert (A : is_asm ps [] = true -> ps [] = Some true).
    { unfold is_asm. destruct (ps []) as [[|]|]; cbn; congruence. }
    subst c. destruct (is_asm ps []) eqn:K; destruct G as [<- | [<- | []]]; change (5 =? 5) with true; change (6 =? 5) with false; cbv iota;
      (split; [discriminate|split; [discriminate|split; [intros _; reflexivity|split; [intros R; exfalso; cbn in R; lia|intros P; first [reflexivity | exfalso; auto]]]]]).
  - destruct H as [H | H]; cbn in H, G;
    repeat (destruct H as [<- | H]; [try (exfalso; lia); (eexists; eexists; split; [vm_compute; reflexivity|]);
      (split; [discriminate|split; [discriminate|split; [intros R; first [reflexivity | exfalso; cbn in R; lia]|
        split; [intros R; first [split; reflexivity | exfalso; cbn in R; lia]|intros _; reflexivity]]]])|]); destruct H.
Qed.
Lemma ljust_bare field name k : bare field name -> (length name <= k <= length field)%nat ->
  ljust (length field) (ljust k name) = field.
Proof.
  intros (n & E & _) L. subst field. rewrite app_length, zeros_length in *. unfold ljust. rewrite app_length, zeros_length, <- app_assoc. f_equal.
  unfold zeros. rewrite <- repeat_app. f_equal. lia.
Qed.
Lemma rstrip0_bare field name : bare field name -> rstrip0 field = name.
Proof.
  intros (n & E & N). subst field. rewrite rstrip0_app_zeros. destruct (list_eq_dec Z.eq_dec name []) as [->|NE]; [reflexivity|].
  apply rstrip0_id. destruct (exists_last NE) as (p & x & ->). rewrite last_last. intros ->. now apply (N p).
Qed.
Lemma named_spec t : is_named t = true <-> named_type t.
Proof. unfold is_named, named_type. cbn. lia. Qed.
Lemma not_list t : group_type t -> is_list t = false.
Proof. unfold is_list, group_type. cbn. lia. Qed.
Lemma group_type_land t : group_type t -> Z.land t 63 = t /\ is_byte t.
Proof.
  intros [H | H]; cbn in H; repeat (destruct H as [<- | H]; [split; [reflexivity|unfold is_byte; lia]|]); destruct H.
Qed.

Lemma ungroup_vat t v (a : bool) (field name tail l : bytes) :
  group_type t -> is_byte v -> length field = 8%nat -> bare field name ->
  (named_type t -> tail = zlen name :: name) ->
  (~ named_type t -> (length name <= 3)%nat /\ tail = name ++ zeros (3 - length name)) ->
  exists w c, ungroup_one ns gv ps true t ([0; v; 0; 0; if a then 1 else 0] ++ tail ++ l) =
    (w, Ok (Entry c (le16 13) [t] field [v] [if a then 128 else 0] (Buf true (fst (load_data_section c l))), snd (load_data_section c l)))
   /\ c <> KGraphedEquation /\ c <> KMatrix
   /\ (sized_type t -> issubclass c KSized = true)
   /\ (real_type t -> issubclass c KSized = false /\ calc_length c = Some 9)
   /\ (ps [] <> Some true -> get_type t = Some c).
Proof.
  intros T V F B HN HU. destruct (group_type_land t T) as [TL TB].
  assert (LN : (length name <= 8)%nat) by (destruct B as (n & -> & _); rewrite app_length in F; lia).
  assert (R : exists w nm, read_vat t ([0; 0; if a then 1 else 0] ++ tail ++ l) = (w, Ok (if a then 1 else 0, nm, l)) /\ ljust 8 nm = field).
  { unfold read_vat. destruct (is_named t) eqn:N.
    - apply named_spec in N. rewrite (HN N). eexists; exists name. split.
      + unfold rd. cbn [app firstn skipn rev]. unfold owarn_if. replace (8 <? zlen name) with false by (unfold zlen; lia).
        cbn [obind]. unfold zlen. rewrite Nat2Z.id, firstn_app_exact, skipn_app_exact by reflexivity. reflexivity.
      + rewrite <- F. rewrite <- (ljust_bare field name (length name)) at 2 by (auto; lia). now rewrite (ljust_id (length name) name) by lia.
    - rewrite not_list by auto. assert (NN : ~ named_type t) by (rewrite <- named_spec; congruence).
      destruct (HU NN) as [L3 ->]. eexists; exists (ljust 3 name). split.
      + change (name ++ zeros (3 - length name)) with (ljust 3 name).
        change (rd 3 ([0; 0; if a then 1 else 0] ++ ljust 3 name ++ l)) with ([0; 0; if a then 1 else 0], ljust 3 name ++ l). cbn [rev app]. unfold rd.
        rewrite firstn_app_exact, skipn_app_exact by (apply ljust_length; auto). reflexivity.
      + rewrite <- F. apply ljust_bare; auto. lia. }
  destruct R as (w1 & nm & R & NM).
  destruct (blank_new v a V) as (w2 & n & BN).
  destruct (blank_coerce t v (if a then 128 else 0) n T) as (w3 & c & CO & P).
  unfold ungroup_one. cbn [app rd firstn skipn]. unfold rd. cbn [firstn skipn]. rewrite TL.
  cbn [app] in R. rewrite R. cbn [obind].
  replace (0 <? (if a then 1 else 0)) with a by (destruct a; reflexivity). rewrite BN. cbn [obind].
  destruct (bits_set_full t [255] 255 eq_refl) as [ws BS]; [unfold is_byte; lia|].
  unfold set_type_id. cbn [e_type]. unfold section_set_raw. rewrite BS. rewrite Z.mod_small by exact TB. cbn [obind].
  change (fit_section (Some 1%nat) [t]) with (@oret bytes [t]). cbn [obind oret]. unfold with_type. cbn [e_cls e_meta e_name e_version e_archived e_data].
  rewrite CO. unfold with_name, with_data. cbn [obind e_cls e_meta e_name e_version e_archived e_data e_type].
  destruct (load_data_section c l) as [d l'] eqn:LD.
  destruct (cls_eqb c KGraphedEquation) eqn:CE.
  { exfalso. destruct P as (P & _). apply P. destruct c; cbn in CE; congruence. }
  cbn [obind oret fst snd]. rewrite NM. eexists; exists c. rewrite LD. split; [reflexivity|exact P].
Qed.
Lemma section_payload c t (payload post : bytes) :
  c <> KGraphedEquation -> c <> KMatrix -> group_type t ->
  (sized_type t -> issubclass c KSized = true) ->
  (real_type t -> issubclass c KSized = false /\ calc_length c = Some 9) ->
  (real_type t -> length payload = 9%nat) ->
  (sized_type t -> exists p, zlen p < 65536 /\ payload = le16 (zlen p) ++ p) ->
  load_data_section c (payload ++ post) = (payload, post).
Proof.
  intros NG NM T S R PR PS.
  assert (E : load_data_section c (payload ++ post) =
    if issubclass c KSized then let '(n, l) := rd 2 (payload ++ post) in let '(x, l) := rd (Z.to_nat (le_int n)) l in (n ++ x, l)
    else match calc_length c with Some k => rd (Z.to_nat k) (payload ++ post) | None => (payload ++ post, []) end)
    by (destruct c; try congruence; reflexivity).
  rewrite E. destruct T as [T | T].
  - destruct (R T) as [-> ->]. unfold rd. rewrite firstn_app_exact, skipn_app_exact by (apply PR; auto). reflexivity.
  - rewrite (S T). destruct (PS T) as (p & L & ->). rewrite <- app_assoc. unfold rd.
    rewrite firstn_app_exact, skipn_app_exact by reflexivity. pose proof (zlen_nonneg p). rewrite le_int_le16 by lia.
    rewrite firstn_app_exact, skipn_app_exact by (unfold zlen; now rewrite Nat2Z.id). reflexivity.
Qed.
Lemma section_nil c : load_data_section c [] = ([], []).
Proof. destruct c; reflexivity. Qed.

Lemma loop_members xs bs post (Q : list entry -> Prop) : Forall2 member xs bs ->
  (forall fuel, (length post <= fuel)%nat -> exists w ys, ungroup_loop ns gv ps fuel true post = (w, Ok ys) /\ Q ys) ->
  forall fuel, (length (concat bs ++ post) <= fuel)%nat ->
  exists w es ys, ungroup_loop ns gv ps fuel true (concat bs ++ post) = (w, Ok (es ++ ys)) /\ Forall2 (regained ps) es xs /\ Q ys.
Proof.
  intros M P. induction M as [|x b xs bs H M IH]; intros fuel F.
  - destruct (P fuel F) as (w & ys & E & q). exists w, [], ys. auto.
  - destruct H as [c t v a field name payload tail T V LF WFF B HN HU PR PS NG].
    cbn [concat] in *. rewrite <- !app_assoc in *. cbn [app] in F |- *.
    destruct fuel as [|fuel]; [cbn in F; lia|]. cbn [ungroup_loop].
    destruct (ungroup_vat t v a field name tail (payload ++ concat bs ++ post) T V LF B HN HU) as (w1 & c' & U & A1 & A2 & A3 & A4 & A5).
    cbn [app] in U. rewrite U. rewrite (section_payload c' t) by auto. cbn [fst snd obind].
    destruct (IH fuel) as (w2 & es & ys & E & FE & q). { cbn in F. rewrite !app_length in *. lia. }
    rewrite E. cbn [obind oret]. eexists; exists (Entry c' (le16 13) [t] field [v] [if a then 128 else 0] (Buf true payload) :: es), ys.
    split; [reflexivity|]. split; [|exact q]. constructor; [|exact FE]. split; [repeat split|].
    intros NP t' [= <-]. cbn [e_cls]. auto.
Qed.
Lemma loop_all xs bs : Forall2 member xs bs ->
  exists w es, ungroup_loop ns gv ps (length (concat bs)) true (concat bs) = (w, Ok es) /\ Forall2 (regained ps) es xs.
Proof.
  intros M. destruct (loop_members xs bs [] (fun ys => ys = []) M) with (fuel := length (concat bs)) as (w & es & ys & E & F & ->).
  - intros [|fuel] _; exists [], []; auto.
  - now rewrite app_nil_r.
  - rewrite !app_nil_r in E. eauto.
Qed.
(** ... and when the last member's data is still missing. *)
Lemma loop_partial xs bs t v (a : bool) (field name tail : bytes) : Forall2 member xs bs ->
  group_type t -> is_byte v -> length field = 8%nat -> bare field name ->
  (named_type t -> tail = zlen name :: name) ->
  (~ named_type t -> (length name <= 3)%nat /\ tail = name ++ zeros (3 - length name)) ->
  let D := concat bs ++ [t; 0; v; 0; 0; if a then 1 else 0] ++ tail in
  exists w es e, ungroup_loop ns gv ps (length D) true D = (w, Ok (es ++ [e])) /\ Forall2 (regained ps) es xs /\
    same_raw e (Entry KEntry (le16 13) [t] field [v] [if a then 128 else 0] (Buf true [])).
Proof.
  intros M T V LF B HN HU D.
  destruct (loop_members xs bs ([t; 0; v; 0; 0; if a then 1 else 0] ++ tail)
    (fun ys => exists e, ys = [e] /\ same_raw e (Entry KEntry (le16 13) [t] field [v] [if a then 128 else 0] (Buf true []))) M) with (fuel := length D)
    as (w & es & ys & E & F & e & -> & SR); [|reflexivity|].
  - intros [|fuel] F; [cbn in F; lia|].
    destruct (ungroup_vat t v a field name tail [] T V LF B HN HU) as (w1 & c' & U & _).
    rewrite app_nil_r in U. cbn [app] in U |- *. cbn [ungroup_loop]. rewrite U, section_nil. cbn [fst snd obind].
    assert (E : ungroup_loop ns gv ps fuel true [] = oret []) by (destruct fuel; reflexivity). rewrite E. cbn [obind oret].
    do 2 eexists. split; [reflexivity|]. eexists. split; [reflexivity|repeat split].
  - eauto 8.
Qed.

Lemma versions_ok es xs : Forall2 (regained ps) es xs -> Forall (versioned gv) xs ->
  exists w vs, omapM (fun e => gv e None) es = (w, Ok vs) /\ Forall is_byte vs.
Proof.
  intros F. induction F as [|e x es xs R F IH]; intros V; [exists [], []; auto|].
  inversion V as [|? ? Vx Vs]; subst. destruct (IH Vs) as (w & vs & E & B). destruct (Vx e) as (w1 & v & E1 & B1); [left; apply R|].
  cbn [omapM]. rewrite E1. cbn [obind]. rewrite E. cbn [obind oret]. eexists; exists (v :: vs). split; [reflexivity|auto].
Qed.
Lemma versions_app es1 es2 w1 v1 w2 v2 : omapM (fun e => gv e None) es1 = (w1, Ok v1) -> omapM (fun e => gv e None) es2 = (w2, Ok v2) ->
  exists w, omapM (fun e => gv e None) (es1 ++ es2) = (w, Ok (v1 ++ v2)).
Proof.
  revert w1 v1. induction es1 as [|e es IH]; intros w1 v1 E1 E2.
  - injection E1 as <- <-. eauto.
  - cbn [omapM app] in *. destruct (gv e None) as [w [v|]]; cbn [obind] in *; [|discriminate].
    destruct (omapM _ es) as [w' [vs|]]; cbn [obind oret] in *; [|discriminate]. injection E1 as <- <-.
    destruct (IH _ _ eq_refl E2) as [w'' ->]. cbn [obind oret]. eauto.
Qed.
Lemma max_byte vs v : Forall is_byte vs -> is_byte v -> is_byte (fold_left Z.max vs v).
Proof.
  intros F. revert v. induction F as [|x vs B F IH]; intros v V; [exact V|]. cbn. apply IH. unfold is_byte in *. lia.
Qed.

Lemma set_group_data g D v ver : is_group g D -> zlen v < 65536 -> is_byte ver -> v <> [] ->
  (forall g' D', is_group g' D' -> exists w, group_version ns gv ps g' (Some v) = (w, Ok ver)) ->
  exists w g', set_data (group_version ns gv ps) g v = (w, Ok g') /\ is_group g' v.
Proof.
  intros (n & v0 & a & -> & B0) L BV NE GV. pose proof (zlen_nonneg v) as P.
  unfold set_data. cbn [e_cls data_view]. unfold set_length_field. cbn [e_cls length_view e_data].
  rewrite integer_set_fit by (cbn; lia). change (olift (Ok (le_bytes 2 (zlen v)))) with (@oret bytes (le_bytes 2 (zlen v))).
  change (View (Some 0) (Some 2)) with (View (Some 0) (Some (Z.of_nat 2))).
  rewrite (view_set_prefix _ 2) by (first [apply le_bytes_length | rewrite app_length; cbn; lia | lia]).
  rewrite !obind_oret. change (skipn 2 (le16 (zlen D) ++ D)) with D. rewrite <- le16_le_bytes by lia.
  set (g1 := with_data _ _). unfold with_data in g1. cbn [e_cls e_meta e_type e_name e_version e_archived] in g1.
  assert (G1 : exists w, group_version ns gv ps g1 (Some v) = (w, Ok ver)).
  { destruct (GV (Entry KGroup [13; 0] [23] n [v0] [a] (Buf true (le16 (zlen D) ++ D))) D) as [w E]; [repeat eexists; apply B0 || auto|].
    exists w. rewrite <- E. unfold group_version, ungroup. destruct v as [|x r]; [congruence|]. reflexivity. }
  destruct G1 as [w1 G1]. match goal with |- context [group_version ns gv ps g1 ?s] => replace (group_version ns gv ps g1 s) with (w1, @Ok Z ver) by (symmetry; exact G1) end. cbn [obind].
  destruct (bits_set_full ver [v0] v0 eq_refl B0) as [ws BS].
  unfold set_version. change (meta_length g1 =? 11) with false. unfold section_set_raw. cbn [g1 e_version]. rewrite BS, Z.mod_small by exact BV.
  cbn [obind owarn_if oret]. change (fit_section (Some 1%nat) [ver]) with (@oret bytes [ver]). cbn [obind oret].
  unfold with_version, g1. cbn [e_cls e_meta e_type e_name e_version e_archived e_data].
  rewrite view_set_rest by (rewrite zlen_app; pose proof (zlen_nonneg D); change (zlen (le16 (zlen v))) with 2; lia).
  cbn [obind oret]. do 2 eexists. split; [reflexivity|]. exists n, ver, a. split; [reflexivity|exact BV].
Qed.

Lemma group_version_ok (v : bytes) w es w' vs : v <> [] -> ungroup_loop ns gv ps (length v) true v = (w, Ok es) ->
  omapM (fun e => gv e None) es = (w', Ok vs) -> Forall is_byte vs ->
  exists ver, is_byte ver /\ forall g D, is_group g D -> exists w, group_version ns gv ps g (Some v) = (w, Ok ver).
Proof.
  intros NE U M B. exists (match vs with [] => 0 | x :: r => fold_left Z.max r x end). split.
  - inversion B; [unfold is_byte; lia|]. now apply max_byte.
  - intros g D G. pose proof (group_flash g D G) as FB. unfold group_version, ungroup. destruct v as [|x r]; [congruence|].
    destruct (flash_bytes g); [congruence|]. rewrite U. cbn [obind]. rewrite M. cbn [obind oret]. eauto.
Qed.
Lemma vat_of_member c t v (a : bool) (field name payload tail : bytes) :
  group_type t -> is_byte v -> length field = 8%nat -> bare field name ->
  (named_type t -> tail = zlen name :: name) ->
  (~ named_type t -> (length name <= 3)%nat /\ tail = name ++ zeros (3 - length name)) ->
  wf_bytes field -> c <> KGraphedEquation ->
  exists w, vat_of (Entry c (le16 13) [t] field [v] [if a then 128 else 0] (Buf true payload)) =
    (w, Ok ([t; 0; v; 0; 0; if a then 1 else 0] ++ tail)).
Proof.
  intros T V LF B HN HU WF NG. destruct (group_type_land t T) as [_ TB]. unfold vat_of. cbn [e_name e_cls].
  rewrite (type_id_byte _ t) by auto. rewrite (version_byte _ v) by auto. rewrite !obind_lift. rewrite (rstrip0_bare field name B).
  replace (archived _) with a by (destruct a; reflexivity).
  destruct (cls_eqb c KGraphedEquation) eqn:CE. { exfalso. apply NG. destruct c; cbn in CE; congruence. }
  destruct (is_named t) eqn:N.
  - apply named_spec in N. rewrite (HN N).
    assert (L8 : 0 <= zlen name <= 8). { pose proof (zlen_nonneg name). destruct B as (n & E & _). rewrite E, app_length in LF. unfold zlen. lia. }
    replace (bytes_of (zlen name :: name)) with (@Ok bytes (zlen name :: name)).
    + rewrite obind_lift. unfold owarn_if. cbn [obind oret]. destruct a; eexists; reflexivity.
    + symmetry. apply bytes_of_ok. constructor; [unfold is_byte; lia|]. destruct B as (n & E & _). rewrite E in WF. apply Forall_app in WF. apply WF.
  - rewrite not_list by auto. assert (NN : ~ named_type t) by (rewrite <- named_spec; congruence).
    destruct (HU NN) as [L3 ->]. rewrite obind_lift. unfold owarn_if. cbn [obind oret]. destruct a; eexists; reflexivity.
Qed.

Lemma group_loop_ok xs bs : Forall2 member xs bs -> Forall (versioned gv) xs ->
  forall xs0 bs0 g, Forall2 member xs0 bs0 -> Forall (versioned gv) xs0 ->
  is_group g (concat bs0) -> zlen (concat (bs0 ++ bs)) < 65536 ->
  exists w g', group_loop ns gv ps g xs = (w, Ok g') /\ is_group g' (concat (bs0 ++ bs)).
Proof.
  intros M. induction M as [|x b xs bs H M IH]; intros V xs0 bs0 g M0 V0 G L.
  - rewrite app_nil_r in *. exists [], g. auto.
  - inversion V as [|? ? Vx Vs]; subst.
    assert (M1 : Forall2 member (xs0 ++ [x]) (bs0 ++ [b])) by (apply Forall2_app; auto).
    assert (V1 : Forall (versioned gv) (xs0 ++ [x])) by (apply Forall_app; auto).
    assert (H' := H). destruct H as [c t v a field name payload tail T VB LF Wx B HN HU PR PS NG].
    set (x := Entry c _ _ _ _ _ _) in *.
    destruct (vat_of_member c t v a field name payload tail T VB LF B HN HU Wx NG) as [w1 VA]. fold x in VA.
    cbn [group_loop]. rewrite VA. cbn [obind]. rewrite (group_data g _ G).
    set (vat := [t; 0; v; 0; 0; if a then 1 else 0] ++ tail) in *.
    assert (LB : zlen (concat bs0 ++ vat) < 65536 /\ zlen (concat bs0 ++ vat ++ payload) < 65536 /\ concat (bs0 ++ [vat ++ payload]) = concat bs0 ++ vat ++ payload).
    { rewrite concat_app in *. cbn [concat] in *. rewrite app_nil_r. rewrite !zlen_app in *. unfold vat in *. rewrite !zlen_app in *. pose proof (zlen_nonneg payload). pose proof (zlen_nonneg (concat bs)).
      split; [|split]; try lia. reflexivity. }
    destruct LB as (L1 & L2 & EC).
    assert (N1 : concat bs0 ++ vat <> []) by (unfold vat; destruct (concat bs0); discriminate).
    assert (N2 : concat bs0 ++ vat ++ payload <> []) by (unfold vat; destruct (concat bs0); discriminate).
    (* the vat alone *)
    destruct (loop_partial xs0 bs0 t v a field name tail M0 T VB LF B HN HU) as (w2 & es & e & U & F & SR). fold vat in U.
    destruct (versions_ok es xs0 F V0) as (w3 & vs & OV & BV).
    destruct (Vx e) as (w4 & ve & EV & BE). { right. unfold x, with_data. cbn. destruct SR as (? & ? & ? & ? & ? & ?). repeat split; assumption. }
    destruct (versions_app es [e] w3 vs w4 [ve] OV) as [w5 OA]. { cbn [omapM]. rewrite EV. cbn [obind oret]. rewrite !app_nil_r. reflexivity. }
    destruct (group_version_ok _ _ _ _ _ N1 U OA) as (ver & BVer & GV).
    { apply Forall_app. auto. }
    destruct (set_group_data g _ (concat bs0 ++ vat) ver G L1 BVer N1 GV) as (w6 & g1 & S1 & G1).
    rewrite S1. cbn [obind]. rewrite (group_data g1 _ G1). change (calc_data x) with payload.
    (* with the data *)
    destruct (loop_all _ _ M1) as (w7 & es2 & U2 & F2). rewrite <- app_assoc in *. fold vat in U2. 
    change ([t; 0; v; 0; 0; if a then 1 else 0] ++ tail ++ payload) with (vat ++ payload) in *.
    assert (U3 : ungroup_loop ns gv ps (length (concat bs0 ++ vat ++ payload)) true (concat bs0 ++ vat ++ payload) = (w7, Ok es2)) by (rewrite <- EC; exact U2).
    destruct (versions_ok es2 _ F2 V1) as (w8 & vs2 & OV2 & BV2).
    destruct (group_version_ok _ _ _ _ _ N2 U3 OV2 BV2) as (ver2 & BVer2 & GV2).
    destruct (set_group_data g1 _ (concat bs0 ++ vat ++ payload) ver2 G1 L2 BVer2 N2 GV2) as (w9 & g2 & S2 & G2).
    rewrite S2. cbn [obind].
    destruct (IH Vs (xs0 ++ [x]) (bs0 ++ [vat ++ payload]) g2 M1 V1) as (w10 & g3 & E3 & G3).
    + rewrite EC. exact G2.
    + rewrite <- app_assoc. exact L.
    + rewrite E3. rewrite <- app_assoc in G3. do 2 eexists. split; [reflexivity|exact G3].
Qed.

Lemma group_new_ok name : okay (ns KGroup name) -> exists w g, group_new ns gv ps true name = (w, Ok g) /\ is_group g [].
Proof.
  intros (w & nm & N). unfold group_new, entry_new. rewrite N.
  change (meta_convert KGroup None 13) with (@oret bytes [13; 0]). rewrite obind_oret.
  change (type_id_of KGroup) with (Some 23). cbv iota. change (section_set_raw (Some 1%nat) (bits_set 0 8 23 None)) with (@oret bytes [23]).
  rewrite obind_oret. unfold section_set_raw at 1. cbn [obind]. unfold fit_section at 1.
  set (n := ljust 8 _). set (ww := owarn_if _ WTooWide).
  assert (W : exists w', ww = (w', Ok tt)) by (unfold ww, owarn_if, owarn; destruct (Nat.ltb _ _); eexists; reflexivity).
  destruct W as [w' ->]. cbn [obind oret]. clearbody n.
  set (e0 := Entry KGroup [13; 0] [23] n [] [] (Buf true [])).
  assert (S1 : set_archived e0 true = oret (Entry KGroup [13; 0] [23] n [] [128] (Buf true []))) by reflexivity.
  rewrite S1. cbn [obind oret]. change (section_set_raw (Some 1%nat) (bits_set 0 8 0 None)) with (@oret bytes [0]).
  rewrite obind_oret. unfold with_version. cbn [e_cls e_meta e_type e_name e_version e_archived e_data].
  set (e1 := Entry KGroup [13; 0] [23] n [0] [128] (Buf true [])).
  assert (S2 : clear e1 = oret (Entry KGroup [13; 0] [23] n [0] [128] (Buf true [0; 0]))) by (vm_compute; reflexivity).
  rewrite S2. rewrite !obind_oret. set (e2 := Entry KGroup [13; 0] [23] n [0] [128] (Buf true [0; 0])).
  assert (S3 : group_version ns gv ps e2 None = oret 0) by reflexivity. rewrite S3, obind_oret.
  assert (S4 : set_version e2 0 = oret e2) by (vm_compute; reflexivity). rewrite S4.
  cbn [obind oret owarn_if]. do 2 eexists. split; [reflexivity|].
  exists n, 0, 128. split; [reflexivity|unfold is_byte; lia].
Qed.

(** ** Entries that cannot be grouped *)
Lemma loop_fail xs bs post ex : Forall2 member xs bs ->
  (forall fuel, (length post <= fuel)%nat -> exists w, ungroup_loop ns gv ps fuel true post = (w, Err ex)) ->
  forall fuel, (length (concat bs ++ post) <= fuel)%nat ->
  exists w, ungroup_loop ns gv ps fuel true (concat bs ++ post) = (w, Err ex).
Proof.
  intros M P. induction M as [|x b xs bs H M IH]; intros fuel F; [auto|].
  destruct H as [c t v a field name payload tail T V LF WFF B HN HU PR PS NG].
  cbn [concat] in *. rewrite <- !app_assoc in *. cbn [app] in F |- *.
  destruct fuel as [|fuel]; [cbn in F; lia|]. cbn [ungroup_loop].
  destruct (ungroup_vat t v a field name tail (payload ++ concat bs ++ post) T V LF B HN HU) as (w1 & c' & U & A1 & A2 & A3 & A4 & A5).
  cbn [app] in U. rewrite U. rewrite (section_payload c' t) by auto. cbn [fst snd obind].
  destruct (IH fuel) as (w2 & E). { cbn in F. rewrite !app_length in *. lia. }
  rewrite E. cbn [obind oret]. eauto.
Qed.
(** The exception raised while looking for the class of an empty entry. *)
Definition hopeless (t : Z) (ex : exn) : Prop :=
  (list_type t /\ ex = IndexError) \/ (complex_type t /\ ex = ValueError).
Lemma hopeless_coerce t ex n v a : hopeless t ex ->
  exists w, coerce ps (Entry KEntry [13; 0] [t] n [v] [a] (Buf true [])) = (w, Err ex).
Proof.
  intros [[H ->] | [H ->]]; cbn in H; repeat (destruct H as [<- | H]; [eexists; vm_compute; reflexivity|]); destruct H.
Qed.
Lemma hopeless_vat x t ex : hopeless t ex -> e_type x = [t] -> (exists v, e_version x = [v] /\ is_byte v) ->
  length (e_name x) = 8%nat -> wf_bytes (e_name x) -> e_cls x <> KGraphedEquation ->
  exists w vat, vat_of x = (w, Ok vat) /\ vat <> [] /\ zlen vat < 100 /\
    forall fuel, (length vat <= fuel)%nat -> exists w', ungroup_loop ns gv ps fuel true vat = (w', Err ex).
Proof.
  intros H T (v & VV & VB) LN WN NG.
  assert (TB : is_byte t /\ Z.land t 63 = t /\ is_named t = false).
  { destruct H as [[H _] | [H _]]; cbn in H; repeat (destruct H as [<- | H]; [split; [unfold is_byte; lia|split; reflexivity]|]); destruct H. }
  destruct TB as (TB & TL & TN).
  unfold vat_of. rewrite (type_id_byte _ t), (version_byte _ v) by auto. rewrite !obind_lift, TN.
  destruct (cls_eqb (e_cls x) KGraphedEquation) eqn:CE. { exfalso. apply NG. destruct (e_cls x); cbn in CE; congruence. }
  set (name := rstrip0 (e_name x)). assert (NW : wf_bytes name). { destruct (rstrip0_split (e_name x)) as [k E]. rewrite E in WN. apply Forall_app in WN. apply WN. }
  assert (NL : (length name <= 8)%nat) by (rewrite <- LN; apply rstrip0_length).
  set (tail := if is_list t then zlen name + 1 :: name ++ [0] else ljust 3 name).
  replace (if is_list t then bytes_of (zlen name + 1 :: name ++ [0]) else Ok (ljust 3 name)) with (@Ok bytes tail).
  2:{ unfold tail. destruct (is_list t); [|reflexivity]. symmetry. apply bytes_of_ok. constructor; [unfold is_byte, zlen; lia|].
      apply Forall_app. split; [exact NW|repeat constructor; unfold is_byte; lia]. }
  rewrite obind_lift. set (a := archived x).
  assert (RV : exists w p nm l, read_vat t ([0; 0; Z.b2z a] ++ tail) = (w, Ok (p, nm, l))).
  { unfold read_vat, tail. rewrite TN. destruct (is_list t).
    - change (rd 4 ([0; 0; Z.b2z a] ++ zlen name + 1 :: name ++ [0])) with ([0; 0; Z.b2z a; zlen name + 1], name ++ [0]).
      cbn [rev app]. pose proof (zlen_nonneg name). replace (zlen name + 1 =? 0) with false by lia. unfold owarn_if, rd.
      destruct (7 <? zlen name + 1); cbn [obind oret owarn]; do 4 eexists; reflexivity.
    - change (rd 3 ([0; 0; Z.b2z a] ++ ljust 3 name)) with ([0; 0; Z.b2z a], ljust 3 name). cbn [rev app]. unfold rd. do 4 eexists; reflexivity. }
  destruct RV as (w1 & p & nm & l & RV).
  destruct (blank_new v (0 <? p) VB) as (w2 & n & BN).
  destruct (hopeless_coerce t ex n v (if 0 <? p then 128 else 0) H) as [w3 CO].
  assert (UO : exists w', ungroup_one ns gv ps true t ([0; v; 0; 0; Z.b2z a] ++ tail) = (w', Err ex)).
  { unfold ungroup_one. change (rd 2 ([0; v; 0; 0; Z.b2z a] ++ tail)) with ([0; v], [0; 0; Z.b2z a] ++ tail). cbv iota. rewrite TL, RV. cbn [obind]. rewrite BN. cbn [obind].
    destruct (bits_set_full t [255] 255 eq_refl) as [ws BS]; [unfold is_byte; lia|].
    unfold set_type_id. cbn [e_type]. unfold section_set_raw. rewrite BS. rewrite Z.mod_small by exact TB. cbn [obind].
    change (fit_section (Some 1%nat) [t]) with (@oret bytes [t]). cbn [obind oret]. unfold with_type. cbn [e_cls e_meta e_name e_version e_archived e_data].
    rewrite CO. cbn [obind]. eauto. }
  destruct UO as [w4 UO].
  assert (W : exists w', owarn_if a WGroup = (w', Ok tt)) by (unfold owarn_if; destruct a; eexists; reflexivity).
  destruct W as [w5 ->]. cbn [obind oret]. do 2 eexists. split; [reflexivity|]. split; [discriminate|]. split.
  { rewrite zlen_app. change (zlen [t; 0; v; 0; 0; Z.b2z a]) with 6. unfold tail, ljust, zlen. destruct (is_list t); cbn [length]; rewrite app_length; unfold zeros; rewrite ?repeat_length; cbn [length]; lia. }
  intros [|fuel] F; [cbn in F; lia|]. cbn [app ungroup_loop]. cbn [app] in UO. rewrite UO. cbn [obind]. eauto.
Qed.
Lemma group_loop_split xs ys g w g' : group_loop ns gv ps g xs = (w, Ok g') ->
  exists w', group_loop ns gv ps g (xs ++ ys) = (let '(w2, r) := group_loop ns gv ps g' ys in (w' ++ w2, r)).
Proof.
  revert g w. induction xs as [|x xs IH]; intros g w E.
  - injection E as _ <-. exists []. cbn [app]. now destruct (group_loop ns gv ps g ys).
  - cbn [app group_loop] in *. destruct (vat_of x) as [w1 [vat|]]; cbn [obind] in *; [|discriminate].
    destruct (set_data _ g _) as [w2 [g1|]]; cbn [obind] in *; [|discriminate].
    destruct (set_data _ g1 _) as [w3 [g2|]]; cbn [obind] in *; [|discriminate].
    destruct (group_loop ns gv ps g2 xs) as [w4 [g3|]] eqn:E4; [|discriminate]. injection E as _ <-.
    destruct (IH _ _ E4) as [w5 ->]. exists (w1 ++ w2 ++ w3 ++ w5). destruct (group_loop ns gv ps g3 ys). now rewrite !app_assoc.
Qed.
Lemma set_group_fail g D v ex : is_group g D -> zlen v < 65536 -> v <> [] ->
  (exists w, ungroup_loop ns gv ps (length v) true v = (w, Err ex)) ->
  exists w, set_data (group_version ns gv ps) g v = (w, Err ex).
Proof.
  intros (n & v0 & a & -> & B0) L NE [w U]. pose proof (zlen_nonneg v) as P.
  unfold set_data. cbn [e_cls data_view]. unfold set_length_field. cbn [e_cls length_view e_data].
  rewrite integer_set_fit by (cbn; lia). change (olift (Ok (le_bytes 2 (zlen v)))) with (@oret bytes (le_bytes 2 (zlen v))).
  change (View (Some 0) (Some 2)) with (View (Some 0) (Some (Z.of_nat 2))).
  rewrite (view_set_prefix _ 2) by (first [apply le_bytes_length | rewrite app_length; cbn; lia | lia]).
  rewrite !obind_oret. unfold group_version at 1, ungroup. destruct v as [|x r]; [congruence|].
  change (flash_bytes _) with [v0; a]. cbv iota. rewrite U. cbn [obind]. eauto.
Qed.
Lemma group_fail xs bs x t ex rest g : Forall2 member xs bs -> Forall (versioned gv) xs ->
  is_group g [] -> zlen (concat bs) < 65000 ->
  hopeless t ex -> e_type x = [t] -> (exists v, e_version x = [v] /\ is_byte v) ->
  length (e_name x) = 8%nat -> wf_bytes (e_name x) -> e_cls x <> KGraphedEquation ->
  exists w, group_loop ns gv ps g (xs ++ x :: rest) = (w, Err ex).
Proof.
  intros M V G L H T VV LN WN NG.
  destruct (group_loop_ok xs bs M V [] [] g (Forall2_nil _) (Forall_nil _) G) as (w1 & g1 & E1 & G1); [cbn [app]; lia|]. cbn [app] in G1.
  destruct (group_loop_split xs (x :: rest) g w1 g1 E1) as [w2 ->].
  destruct (hopeless_vat x t ex H T VV LN WN NG) as (w3 & vat & VA & VN & LV & U).
  cbn [group_loop]. rewrite VA. cbn [obind]. rewrite (group_data g1 _ G1).
  destruct (set_group_fail g1 _ (concat bs ++ vat) ex G1) as [w4 ->].
  - rewrite zlen_app. lia.
  - destruct (concat bs), vat; cbn; congruence.
  - apply (loop_fail xs bs vat ex M U). lia.
  - cbn [obind]. eauto.
Qed.
End Groups.
