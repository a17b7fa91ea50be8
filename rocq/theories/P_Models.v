(** Property theorems C09, C10, C19, C20, C67, C68: headers, models, file
    extensions, loader dispatch. *)
From Verif Require Import L_Base M_Data M_Flags M_Models M_Class M_Var S_Data L_Data S_Var L_Models.
From Coq Require Import Permutation.

(** C09: header bytes. *)
Theorem C09_header_first_53 : forall b, fitted 53 b (header_bytes (header_load b)).
Proof. exact header_load_bytes. Qed.
Print Assumptions C09_header_first_53.
Theorem C09_header_restores : forall h rest, header_wf h -> header_load (header_bytes h ++ rest) = h.
Proof. exact header_restore. Qed.
Print Assumptions C09_header_restores.
(** Every header that was constructed or loaded meets the hypothesis. *)
Theorem C09_constructed_wf : forall m magic extra product comment w h,
  header_new m magic extra product comment = (w, Ok h) -> header_wf h.
Proof. exact header_new_wf. Qed.
Print Assumptions C09_constructed_wf.
Theorem C09_loaded_wf : forall b, wf_bytes b -> header_wf (header_load b).
Proof. intros b H. destruct (header_load_widths b); tauto. Qed.
Print Assumptions C09_loaded_wf.
(** Loading from a stream is not equivalent to loading its bytes. *)
Theorem C09_header_stream_refuted : exists s,
  header_load_any (FromStream s) <> header_load_any (FromBytes (st_buf s)).
Proof. exists (Stream (s2l "**TI83F*") 0). discriminate. Qed.
Print Assumptions C09_header_stream_refuted.
(** The fields of a constructed header are the arguments, cut or padded; an
    absent or empty magic and an absent product ID are the model's. *)
Theorem C09_constructed_fields : forall m mg extra p comment,
  wf_bytes mg -> mg <> [] -> wf_bytes comment -> is_byte p ->
  exists w h, header_new m (Some mg) extra (Some p) comment = (w, Ok h) /\
    fitted 8 mg (h_magic h) /\ fitted 2 extra (h_extra h) /\ h_product h = [p] /\ fitted 42 comment (h_comment h).
Proof.
  intros m mg extra p comment Wm Nm Wc Bp. unfold header_new. cbv zeta.
  destruct mg as [|x r]; [congruence|]. cbv iota.
  unfold string_set. rewrite (latin1_ok (x :: r) Wm), (latin1_ok comment Wc).
  destruct (fit_ok 8 (x :: r) [] _ eq_refl) as (w1 & s1 & E1 & F1).
  destruct (fit_ok 2 extra [] _ eq_refl) as (w2 & s2 & E2 & F2).
  destruct (bits_set_none p) as (ws & Eb). rewrite Z.mod_small in Eb by exact Bp.
  unfold bytes in *; destruct (fit_ok 1 [p] ws _ eq_refl) as (w3 & s3 & E3 & F3).
  destruct (fit_ok 42 comment [] _ eq_refl) as (w4 & s4 & E4 & F4).
  unfold bytes in *. unfold olift, oret. rewrite Eb. rewrite E1, E2, E3, E4. cbn [obind].
  eexists _, _. split; [reflexivity|]. cbn. apply (fitted_exact [p]) in F3. auto.
Qed.
Print Assumptions C09_constructed_fields.
Theorem C09_constructed_defaults : forall m extra p comment,
  let md := match m with Some x => x | None => TI_83P end in
  header_new m None extra p comment = header_new m (Some (s2l (magic_of md))) extra p comment /\
  header_new m (Some []) extra p comment = header_new m (Some (s2l (magic_of md))) extra p comment /\
  (forall mg, header_new m mg extra None comment = header_new m mg extra (Some (model_product_id md)) comment).
Proof. intros [[]|] extra p comment; repeat split. Qed.
Print Assumptions C09_constructed_defaults.
Example C09_example_fields : exists h, header_new (Some TI_82) (Some (s2l "**TI99**")) [1] (Some 19) (s2l "hi") = ([], Ok h) /\
  header_bytes h = s2l "**TI99**" ++ [1; 0; 19] ++ s2l "hi" ++ zeros 40.
Proof. eexists. split; vm_compute; reflexivity. Qed.
Example C09_example : exists h, header_default (Some TI_84P) = ([], Ok h) /\ header_wf h /\
  length (header_bytes h) = 53%nat /\ header_load (header_bytes h ++ [1; 2]) = h /\
  header_bytes (header_load (header_bytes h ++ [1; 2])) = header_bytes h.
Proof.
  eexists. split; [vm_compute; reflexivity|]. split; [|repeat split; vm_compute; reflexivity].
  unfold header_wf. repeat split. exists 10. split; [reflexivity|unfold is_byte; lia].
Qed.

(** C10: targets. *)
Theorem C10_model_header_targets_model : forall m, exists h l,
  header_default (Some m) = ([], Ok h) /\ header_targets h = Ok l /\ In m l.
Proof. exact default_header_targets. Qed.
Print Assumptions C10_model_header_targets_model.
Theorem C10_targets_exact : forall h, header_wf h ->
  match header_targets h with
  | Ok l => forall p, h_product h = [p] -> forall m, In m l <-> addressed (h_magic h) p m
  | Err e => e = ValueError /\ forall m, h_magic h <> s2l (magic_of m)
  end.
Proof. exact header_targets_spec. Qed.
Print Assumptions C10_targets_exact.
Theorem C10_targets_nonempty : forall h, header_wf h ->
  (exists m, h_magic h = s2l (magic_of m)) -> exists m l, header_targets h = Ok (m :: l).
Proof. exact header_targets_total. Qed.
Print Assumptions C10_targets_nonempty.
Example C10_example :
  rbind (snd (header_new None None [26; 10] (Some 19) [])) header_targets =
    Ok [TI_84PCE; TI_84PCET; TI_83PCE; TI_83PCEEP; TI_84PCEPY; TI_84PCETPE] /\
  rmap (@length model) (rbind (snd (header_new None None [26; 10] (Some 200) [])) header_targets) = Ok 19%nat /\
  rbind (snd (header_new None (Some (s2l "**TI99**")) [26; 10] (Some 19) [])) header_targets = Err ValueError.
Proof. repeat split; vm_compute; reflexivity. Qed.

(** C19: the extension of a one-entry var with a target model. [listed c k x]:
    class [c] lists extension [x] for model [k]; [None] is the default. *)
Definition listed (c : cls) (k : option model) (x : str) : Prop := In (k, x) (extensions c).
Definition single (v : var) (e : entry) (m : model) : Prop := v_entries v = [e] /\ v_model v = Some m.
Lemma listed_get c k x : listed c k x -> ext_get (extensions c) k = Some x.
Proof.
  unfold listed. destruct c; simpl; unfold ext3; simpl; intros H;
  repeat (destruct H as [H|H]; [injection H as <- <-; reflexivity|]); contradiction.
Qed.
Lemma default_listed c : exists d, listed c None d /\ ext_get (extensions c) None = Some d.
Proof. destruct c; (eexists; split; [left; reflexivity|reflexivity]). Qed.
Lemma ext_found_spec order c m : ext_found order (extensions c) m = true <->
  exists k x, listed c (Some k) x /\ (order k < order m \/ k = m).
Proof.
  unfold ext_found. rewrite existsb_exists. split.
  - intros (k & _ & H). destruct (ext_get (extensions c) (Some k)) as [x|] eqn:E; [|discriminate].
    apply ext_get_in in E. exists k, x. split; auto. unfold model_le, model_ge in H.
    apply orb_true_iff in H as [H|H]; [left; lia|right; now apply model_eqb_spec].
  - intros (k & x & L & H). exists k. split; [apply -> in_rev; apply all_models|].
    rewrite (listed_get _ _ _ L). unfold model_le, model_ge. apply orb_true_iff.
    destruct H as [H|H]; [left; lia|right; now apply model_eqb_spec].
Qed.
(** A listed model gets its own extension. *)
Theorem C19_listed_model : forall order v e m x, single v e m ->
  listed (e_cls e) (Some m) x -> x <> [] -> extension order v = ([], Ok x).
Proof.
  intros order v e m x [E M] L N. unfold extension. rewrite E, M.
  assert (F : ext_found order (extensions (e_cls e)) m = true) by (apply ext_found_spec; eauto).
  rewrite F. unfold lookup_ext. rewrite (listed_get _ _ _ L). cbn. now destruct x.
Qed.
Print Assumptions C19_listed_model.
(** A model older than every listed one gets the default, with a warning. *)
Theorem C19_no_listed_model : forall order v e m, single v e m ->
  (forall k x, listed (e_cls e) (Some k) x -> order m <= order k /\ k <> m) ->
  exists d, listed (e_cls e) None d /\ extension order v = ([WExtension], Ok d).
Proof.
  intros order v e m [E M] H. destruct (default_listed (e_cls e)) as (d & L & G). exists d. split; auto.
  unfold extension. rewrite E, M.
  destruct (ext_found order (extensions (e_cls e)) m) eqn:F.
  - apply ext_found_spec in F as (k & x & L2 & F). apply H in L2. destruct L2 as [A B]. destruct F as [F|F]; [lia|contradiction].
  - unfold lookup_ext. rewrite G. reflexivity.
Qed.
Print Assumptions C19_no_listed_model.
(** A model that is not itself listed but newer than a listed one makes the
    lookup raise. *)
Theorem C19_unlisted_newer_model_raises : forall order v e m k x, single v e m ->
  (forall y, ~ listed (e_cls e) (Some m) y) -> listed (e_cls e) (Some k) x -> order k < order m ->
  extension order v = ([], Err KeyError).
Proof.
  intros order v e m k x [E M] N L O. unfold extension. rewrite E, M.
  assert (F : ext_found order (extensions (e_cls e)) m = true) by (apply ext_found_spec; eauto).
  rewrite F. unfold lookup_ext. destruct (ext_get (extensions (e_cls e)) (Some m)) eqn:G; [|reflexivity].
  exfalso. now apply ext_get_in, N in G.
Qed.
Print Assumptions C19_unlisted_newer_model_raises.
(** Without a target model the default is used; several entries are a group. *)
Theorem C19_no_model : forall order v e, v_entries v = [e] -> v_model v = None ->
  exists d, listed (e_cls e) None d /\ extension order v = ([], Ok d).
Proof.
  intros order v e E M. destruct (default_listed (e_cls e)) as (d & L & G). exists d. split; auto.
  unfold extension. rewrite E, M. unfold lookup_ext. now rewrite G.
Qed.
Print Assumptions C19_no_model.
Definition real_entry : entry := Entry KReal [13; 0] [0] (65 :: zeros 7) [0] [0] (Buf true (zeros 9)).
Definition some_header : header := Header (s2l "**TI83F*") [26; 10] [10] (zeros 42).
(** The never-fails part of the claim is false: a real number for the TI-84+. *)
Theorem C19_extension_refuted : exists order v e m, single v e m /\ order TI_83P < order TI_84P /\
  (forall w x, extension order v <> (w, Ok x)).
Proof.
  exists model_index, (Var some_header [real_entry] (Some TI_84P)), real_entry, TI_84P.
  split; [split; reflexivity|]. split; [reflexivity|]. intros w x. vm_compute. discriminate.
Qed.
Print Assumptions C19_extension_refuted.
Example C19_example :
  extension model_index (Var some_header [real_entry] (Some TI_83)) = ([], Ok (s2l "83n")) /\
  extension model_index (Var some_header [with_cls real_entry KAppVar] (Some TI_82)) = ([WExtension], Ok (s2l "8xv")) /\
  extension model_index (Var some_header [real_entry] (Some TI_84P)) = ([], Err KeyError) /\
  extension model_index (Var some_header [real_entry; real_entry] (Some TI_84P)) = ([], Ok (s2l "8xg")).
Proof. repeat split; vm_compute; reflexivity. Qed.

(** C20: the model check after loading, for any iteration order of the target
    set. *)
Theorem C20_check_two_targets : forall order set_order m h l,
  (forall t, Permutation (set_order t) t) -> header_targets h = Ok l -> (2 <= length l)%nat ->
  exists x, In x l /\ (forall y, In y l -> order x <= order y) /\
    ((order m < order x \/ m = x) -> model_check order set_order (Some m) h = ([], Ok tt)) /\
    (~ (order m < order x \/ m = x) -> model_check order set_order (Some m) h = ([WModel], Ok tt)).
Proof.
  intros order so m h l P T L. unfold model_check. rewrite T. cbn [olift obind].
  specialize (P l). assert (Ls : (2 <= length (so l))%nat) by (rewrite (Permutation_length P); auto).
  pose proof (min_star_spec order (so l)) as M. destruct (min_star order (so l)) as [x|e] eqn:E.
  - destruct M as [_ M]. exists x. split; [now apply (Permutation_in _ P)|]. split.
    + intros y Y. apply Permutation_sym in P. apply (Permutation_in _ P) in Y.
      destruct (so l) as [|a [|b r]]; simpl in Ls; try lia. injection E as <-.
      now apply (min_from_least order (b :: r) a).
    + cbn [olift obind]. unfold model_le, model_ge. destruct (model_eqb m x) eqn:Q.
      * apply model_eqb_spec in Q. subst. split; intros H; [|exfalso; apply H; now right].
        rewrite orb_true_r. reflexivity.
      * assert (NQ : m <> x). { intros ->. assert (model_eqb x x = true) by now apply model_eqb_spec. congruence. }
        rewrite orb_false_r. split; intros H.
        -- destruct H; [|contradiction]. replace (order x <=? order m) with false by lia. reflexivity.
        -- replace (order x <=? order m) with true by lia. reflexivity.
  - destruct M; lia.
Qed.
Print Assumptions C20_check_two_targets.
Theorem C20_check_one_target_raises : forall order set_order m h t,
  (forall t, Permutation (set_order t) t) -> header_targets h = Ok [t] ->
  model_check order set_order (Some m) h = ([], Err TypeError).
Proof.
  intros order so m h t P T. unfold model_check. rewrite T. cbn [olift obind].
  specialize (P [t]). apply Permutation_sym, Permutation_length_1_inv in P. now rewrite P.
Qed.
Print Assumptions C20_check_one_target_raises.
(** So the claim is false: every header made for a TI-82, TI-82A, TI-84+T or
    TI-84+CSE has a single target. *)
Theorem C20_model_check_refuted : forall m, In m [TI_82; TI_82A; TI_84PT; TI_84PCSE] ->
  exists h, header_default (Some m) = ([], Ok h) /\
  forall order target, model_check order (fun l => l) (Some target) h = ([], Err TypeError).
Proof.
  intros m H. assert (E : exists h, header_default (Some m) = ([], Ok h) /\ header_targets h = Ok [m]).
  { simpl in H. destruct H as [<-|[<-|[<-|[<-|[]]]]];
    (eexists; split; [vm_compute; reflexivity|vm_compute; reflexivity]). }
  destruct E as (h & E1 & E2). exists h. split; auto. intros.
  apply C20_check_one_target_raises with (t := m); auto.
Qed.
Print Assumptions C20_model_check_refuted.
Example C20_example :
  rmap (@length model) (header_targets some_header) = Ok 5%nat /\
  model_check model_index (fun l => l) (Some TI_84P) some_header = ([], Ok tt) /\
  model_check model_index (fun l => rev l) (Some TI_84PCE) some_header = ([WModel], Ok tt).
Proof. repeat split; vm_compute; reflexivity. Qed.

(** C67: loader dispatch.  [passed s i ls s']: every loader of [ls] either does
    not accept the type of [i] or raised NotImplementedError, and the object
    went from [s] to [s']. *)
Section Dispatch.
  Context {S I T : Type} (isinst : I -> T -> bool).
  Definition accepts (i : I) (ts : list T) : Prop := exists t, In t ts /\ isinst i t = true.
  Inductive passed (i : I) : S -> list (list T * (S -> I -> S * result unit)) -> S -> Prop :=
  | passed_nil s : passed i s [] s
  | passed_other s ts f ls s' : ~ accepts i ts -> passed i s ls s' -> passed i s ((ts, f) :: ls) s'
  | passed_unimpl s ts f ls s1 s' : accepts i ts -> f s i = (s1, Err NotImplementedError) ->
      passed i s1 ls s' -> passed i s ((ts, f) :: ls) s'.
  Lemma accepts_dec i ts : existsb (isinst i) ts = true <-> accepts i ts.
  Proof. apply existsb_exists. Qed.
  Lemma dispatch_passed i s ls s' : passed i s ls s' ->
    forall rest, dock_load isinst (ls ++ rest) s i = dock_load isinst rest s' i.
  Proof.
    induction 1; intros rest; cbn [app dock_load]; auto.
    - destruct (existsb (isinst i) ts) eqn:E; [apply accepts_dec in E; contradiction|auto].
    - apply accepts_dec in H. rewrite H, H0. auto.
  Qed.
  Lemma dispatch_cases ls : forall s i,
    (exists s', passed i s ls s') \/
    (exists pre ts f post s1, ls = pre ++ (ts, f) :: post /\ passed i s pre s1 /\ accepts i ts /\
       snd (f s1 i) <> Err NotImplementedError).
  Proof.
    induction ls as [|[ts f] ls IH]; intros s i.
    - left. exists s. constructor.
    - destruct (existsb (isinst i) ts) eqn:E.
      + assert (A : accepts i ts) by now apply accepts_dec. destruct (f s i) as [s1 r] eqn:F.
        assert (D : r = Err NotImplementedError \/ r <> Err NotImplementedError).
        { destruct r as [u|[]]; auto; right; discriminate. }
        destruct D as [->|D].
        * destruct (IH s1 i) as [(s' & P)|(pre & ts' & f' & post & s2 & -> & P & A' & N)].
          -- left. exists s'. econstructor 3; eauto.
          -- right. exists ((ts, f) :: pre), ts', f', post, s2. split; [reflexivity|]. split; [econstructor 3; eauto|auto].
        * right. exists [], ts, f, ls, s. split; [reflexivity|]. split; [constructor|]. split; auto. now rewrite F.
      + assert (A : ~ accepts i ts) by (intros A; apply accepts_dec in A; congruence).
        destruct (IH s i) as [(s' & P)|(pre & ts' & f' & post & s2 & -> & P & A' & N)].
        * left. exists s'. now constructor.
        * right. exists ((ts, f) :: pre), ts', f', post, s2. split; [reflexivity|]. split; [now constructor|auto].
  Qed.
End Dispatch.
Theorem C67_first_implemented_loader : forall S I T (isinst : I -> T -> bool) pre ts f post s i s1 s2 r,
  @passed S I T isinst i s pre s1 -> accepts isinst i ts -> f s1 i = (s2, r) -> r <> Err NotImplementedError ->
  dock_load isinst (pre ++ (ts, f) :: post) s i = (s2, r).
Proof.
  intros S I T isinst pre ts f post s i s1 s2 r P A F N. rewrite (dispatch_passed isinst i s pre s1 P).
  cbn [dock_load]. apply accepts_dec in A. rewrite A, F. destruct r as [[]|[]]; auto. congruence.
Qed.
Print Assumptions C67_first_implemented_loader.
Theorem C67_no_loader : forall S I T (isinst : I -> T -> bool) ls s i s',
  @passed S I T isinst i s ls s' -> dock_load isinst ls s i = (s', Err TypeError).
Proof.
  intros. pose proof (dispatch_passed isinst i s ls s' H []) as E. rewrite app_nil_r in E. exact E.
Qed.
Print Assumptions C67_no_loader.
(** The two cases above are exhaustive. *)
Theorem C67_cases : forall S I T (isinst : I -> T -> bool) ls s i,
  (exists s', @passed S I T isinst i s ls s') \/
  (exists pre ts f post s1, ls = pre ++ (ts, f) :: post /\ passed isinst i s pre s1 /\ accepts isinst i ts /\
     snd (f s1 i) <> Err NotImplementedError).
Proof. intros. apply dispatch_cases. Qed.
Print Assumptions C67_cases.
(** Registration: a new key goes last, an existing one is replaced in place. *)
Theorem C67_register_new : forall T F (eqb : list T -> list T -> bool) (ls : list (list T * F)) k f,
  (forall k' f', In (k', f') ls -> eqb k' k = false) -> loader_register eqb ls k f = ls ++ [(k, f)].
Proof.
  induction ls as [|[k' f'] ls IH]; intros k f H; auto. cbn [loader_register app].
  rewrite (H k' f') by now left. rewrite IH; auto. intros. eapply H. right. eauto.
Qed.
Print Assumptions C67_register_new.
Theorem C67_register_replace : forall T F (eqb : list T -> list T -> bool) (pre post : list (list T * F)) k k' f f',
  (forall a b, In (a, b) pre -> eqb a k = false) -> eqb k' k = true ->
  loader_register eqb (pre ++ (k', f') :: post) k f = pre ++ (k', f) :: post.
Proof.
  induction pre as [|[a b] pre IH]; intros post k k' f f' H E; cbn [loader_register app].
  - now rewrite E.
  - rewrite (H a b) by now left. rewrite IH; auto. intros. eapply H. right. eauto.
Qed.
Print Assumptions C67_register_replace.
Example C67_example :
  let isinst (i : Z) (t : Z) := i mod 10 =? t in
  let ok n := fun (s i : Z) => (s + n, Ok tt) in
  let unimpl := fun (s i : Z) => (s, @Err unit NotImplementedError) in
  dock_load isinst [([1], ok 1); ([2; 3], unimpl); ([3], ok 4); ([3], ok 8)] 0 3 = (4, Ok tt) /\
  dock_load isinst [([1], ok 1); ([2; 3], unimpl)] 0 3 = (0, Err TypeError).
Proof. split; reflexivity. Qed.

(** C68: features. The documented table. *)
Definition features_of (m : model) : list feature :=
  match m with
  | TI_82 => []
  | TI_83 | TI_82ST | TI_82ST_fr | TI_76_fr => [Complex]
  | TI_82A => [Complex; Flash]
  | TI_83P | TI_83PSE | TI_83P_fr | TI_82P => [Complex; Flash; Apps]
  | TI_84P | TI_84PSE | TI_83P_fr_USB | TI_84P_fr | TI_84PPSE | TI_84PT => [Complex; Flash; Apps; Clock]
  | TI_84PCSE => [Complex; Flash; Apps; Clock; Color]
  | TI_84PCE | TI_84PCET => [Complex; Flash; Apps; Clock; Color; EZ80]
  | TI_83PCE => [Complex; Flash; Apps; Clock; Color; EZ80; ExactMath]
  | TI_83PCEEP => [Complex; Flash; Apps; Clock; Color; EZ80; ExactMath; Python]
  | TI_84PCEPY | TI_84PCETPE => [Complex; Flash; Apps; Clock; Color; EZ80; Python]
  | TI_82AEP => [Complex; Flash; Clock; Color; EZ80; ExactMath; Python]
  end.
Theorem C68_has_table : forall m f,
  (has m f = Ok true <-> In f (features_of m)) /\ (has m f = Ok false <-> ~ In f (features_of m)).
Proof.
  intros m f. destruct m, f; vm_compute;
    split; split; intros H; try discriminate H; try reflexivity; try tauto; try intuition discriminate.
Qed.
Print Assumptions C68_has_table.
(** Each family extends its predecessor by the named features. *)
Definition extends (a b : model) (new : list feature) : Prop :=
  forall f, has b f = Ok true <-> (has a f = Ok true \/ In f new).
Theorem C68_families_grow :
  extends TI_82 TI_83 [Complex] /\ extends TI_83 TI_82A [Flash] /\ extends TI_82A TI_83P [Apps] /\
  extends TI_83P TI_84P [Clock] /\ extends TI_84P TI_84PCSE [Color] /\ extends TI_84PCSE TI_84PCE [EZ80] /\
  extends TI_84PCE TI_83PCE [ExactMath] /\ extends TI_83PCE TI_83PCEEP [Python] /\
  extends TI_84PCE TI_84PCEPY [Python].
Proof.
  repeat apply conj; intros f; destruct f; vm_compute; split; intros H; try discriminate H; try reflexivity; try tauto;
  try (destruct H as [H|[H|[]]]; discriminate H); try (left; reflexivity); try (right; left; reflexivity).
Qed.
Print Assumptions C68_families_grow.
Theorem C68_82AEP_drops_apps_only : forall f, has TI_82AEP f = Ok true <-> (has TI_83PCEEP f = Ok true /\ f <> Apps).
Proof.
  intros f. destruct f; vm_compute; split; intros H; try discriminate H; try reflexivity;
  try (split; [reflexivity|discriminate]); try (now destruct H).
Qed.
Print Assumptions C68_82AEP_drops_apps_only.
Example C68_example : has TI_84PCE Color = Ok true /\ has TI_82AEP Apps = Ok false /\ has TI_82 Complex = Ok false.
Proof. repeat split; vm_compute; reflexivity. Qed.
