From Verif Require Import PyBase M_Data M_Flags M_Models M_Class M_Var L_Base S_Data L_Data S_Var.
From Coq Require Import Lia.

Lemma all_models m : In m MODELS.
Proof. destruct m; simpl; tauto. Qed.
Lemma all_features f : In f FEATURES.
Proof. destruct f; simpl; tauto. Qed.
Lemma all_classes c : In c CLASSES.
Proof. destruct c; simpl; tauto. Qed.

Lemma model_eqb_spec a b : model_eqb a b = true <-> a = b.
Proof.
  unfold model_eqb. rewrite Z.eqb_eq. split; [|now intros ->].
  destruct a; destruct b; intros H; try reflexivity; vm_compute in H; discriminate H.
Qed.
Lemma magic_table m : model_magic m = s2l (magic_of m).
Proof. now destruct m. Qed.

(** ** Headers *)
Lemma header_load_widths b :
  header_wf (header_load b) \/ ~ wf_bytes b.
Proof.
  destruct (wf_bytesb b) eqn:E.
  2:{ right. intros H. apply wf_bytesb_spec in H. congruence. }
  left. apply wf_bytesb_spec in E. unfold header_load, rd, header_wf. cbn [h_magic h_extra h_product h_comment].
  assert (L : (53 <= length (ljust header_len b))%nat).
  { unfold ljust, header_len. rewrite app_length, zeros_length. lia. }
  assert (W : wf_bytes (ljust header_len b)) by now apply wf_ljust.
  set (d := ljust header_len b) in *. clearbody d.
  rewrite !firstn_length, !skipn_length. repeat split; try lia.
  rewrite !skipn_skipn'. destruct (skipn (8 + 2) d) as [|p r] eqn:S.
  - apply (f_equal (@length Z)) in S. rewrite skipn_length in S. simpl in S. lia.
  - exists p. split; [reflexivity|]. assert (W2 : wf_bytes (p :: r)) by (rewrite <- S; now apply wf_skipn).
    now inversion W2.
Qed.

Lemma header_load_bytes b : fitted 53 b (header_bytes (header_load b)).
Proof.
  assert (E : header_bytes (header_load b) = firstn 53 (ljust 53 b)).
  { unfold header_bytes, header_load, rd. cbn [h_magic h_extra h_product h_comment].
    change header_len with 53%nat. set (d := ljust 53 b). clearbody d.
    rewrite !skipn_skipn'.
    replace (firstn 53 d) with (firstn 8 d ++ firstn 2 (skipn 8 d) ++ firstn 1 (skipn (8+2) d) ++ firstn 42 (skipn (8+2+1) d)); auto.
    rewrite (firstn_skipn_split d 8 53) by lia. rewrite (firstn_skipn_split _ 2 (53 - 8)) by lia.
    rewrite (firstn_skipn_split _ 1 (53 - 8 - 2)) by lia. now rewrite !skipn_skipn'. }
  rewrite E. split.
  - rewrite firstn_length. unfold ljust. rewrite app_length, zeros_length. lia.
  - intros i Hi. rewrite nth_firstn_lt by lia. unfold ljust.
    rewrite nth_app_zeros. destruct (Nat.ltb i (length b)) eqn:Q; auto.
    apply Nat.ltb_ge in Q. now apply nth_overflow.
Qed.

Lemma header_restore h rest : header_wf h -> header_load (header_bytes h ++ rest) = h.
Proof.
  destruct h as [a b c d]. unfold header_wf. cbn [h_magic h_extra h_product h_comment].
  intros (Ha & Hb & (p & -> & _) & Hd).
  assert (L : (53 <= length (header_bytes (Header a b [p] d) ++ rest))%nat).
  { unfold header_bytes. cbn [h_magic h_extra h_product h_comment]. rewrite !app_length. simpl. lia. }
  unfold header_load. change header_len with 53%nat. rewrite ljust_id by exact L.
  unfold header_bytes, rd. cbn [h_magic h_extra h_product h_comment]. rewrite <- !app_assoc.
  rewrite (firstn_app_exact a) by auto. rewrite (skipn_app_exact a) by auto.
  rewrite (firstn_app_exact b) by auto. rewrite (skipn_app_exact b) by auto.
  rewrite (firstn_app_exact [p]) by auto. rewrite (skipn_app_exact [p]) by auto.
  now rewrite (firstn_app_exact d) by auto.
Qed.

Lemma bits_set_none v : exists ws, bits_set 0 8 v None = (ws, Ok [v mod 256]).
Proof.
  unfold bits_set.
  assert (E : forall k idx bits, (idx + k = 8)%nat -> (k <= length bits)%nat ->
     bits_place k idx 0 8 bits None = Ok (2 ^ Z.of_nat idx * bits_int (firstn k bits), skipn k bits)).
  { induction k; intros idx bits H1 H2.
    - cbn [bits_place firstn bits_int skipn]. now rewrite Z.mul_0_r.
    - destruct bits as [|x bits]; [simpl in H2; lia|]. cbn [bits_place].
      replace (Nat.leb 0 idx && Nat.ltb idx 8) with true by (symmetry; apply andb_true_iff; split; [reflexivity|apply Nat.ltb_lt; lia]).
      rewrite (IHk (S idx) bits) by (simpl in H2; lia). cbn [rbind fst snd firstn skipn bits_int].
      rewrite Nat2Z.inj_succ, Z.pow_succ_r by lia. do 2 f_equal. ring. }
  rewrite E by (rewrite ?lsb_bits_length; lia). unfold olift. cbn [obind fst snd].
  change (2 ^ Z.of_nat 0) with 1. rewrite Z.mul_1_l.
  rewrite firstn_ge by (rewrite lsb_bits_length; lia). rewrite bits_int_lsb_bits.
  change (2 ^ Z.of_nat 8) with 256. rewrite Z.mod_mod by lia.
  assert (0 <= v mod 256 < 256) by (apply Z.mod_pos_bound; lia).
  rewrite byte_of_ok by auto. eexists. reflexivity.
Qed.

Lemma fit_ok n v ws r : section_set_raw (Some n) (ws, Ok v) = r ->
  exists w s, r = (w, Ok s) /\ fitted n v s.
Proof.
  unfold section_set_raw. cbn [obind].
  destruct (fit_section_fitted n v) as (s & E & F). rewrite E. intros <-. eexists _, s. split; [reflexivity|exact F].
Qed.

Lemma header_new_wf m magic extra product comment w h :
  header_new m magic extra product comment = (w, Ok h) -> header_wf h.
Proof.
  unfold header_new. intros H.
  apply obind_ok in H as (w1 & a & w2 & E1 & H & _).
  apply obind_ok in H as (w3 & b & w4 & E2 & H & _).
  apply obind_ok in H as (w5 & c & w6 & E3 & H & _).
  apply obind_ok in H as (w7 & d & w8 & E4 & H & _).
  injection H as _ <-. unfold header_wf. cbn [h_magic h_extra h_product h_comment].
  assert (Lem : forall n x ww y, section_set_raw (Some n) x = (ww, Ok y) -> exists z wz, x = (wz, Ok z) /\ fitted n z y).
  { intros n x ww y E. unfold section_set_raw in E. apply obind_ok in E as (wa & z & wb & Ex & Ez & _).
    destruct (fit_section_fitted n z) as (s & Es & F). rewrite Es in Ez. injection Ez as _ <-. eauto. }
  apply Lem in E1 as (? & ? & _ & F1). apply Lem in E2 as (? & ? & _ & F2).
  apply Lem in E4 as (? & ? & _ & F4).
  apply Lem in E3 as (z & wz & Ez & F3).
  destruct (bits_set_none (match product with Some p => p | None => model_product_id (match m with Some x => x | None => TI_83P end) end)) as (ws & Eb).
  rewrite Eb in Ez. injection Ez as _ <-.
  repeat split; try (now destruct F1); try (now destruct F2); try (now destruct F4).
  apply fitted_exact with (v := [_]) in F3. rewrite F3. eexists. split; [reflexivity|].
  apply Z.mod_pos_bound. lia.
Qed.

Lemma bits_get_byte x : is_byte x -> bits_get 0 8 [x] = Ok x.
Proof.
  intros H. rewrite bits_get_value by lia. change (2 ^ Z.of_nat 0) with 1. change (2 ^ Z.of_nat (8 - 0)) with 256.
  rewrite Z.div_1_r, Z.mod_small by exact H. reflexivity.
Qed.

Lemma rstrip_magic m b : rstrip0 b = s2l (magic_of m) -> length b = 8%nat -> b = s2l (magic_of m).
Proof.
  intros H L. rewrite <- H. rewrite <- (rstrip0_ljust b) at 1. rewrite H, L. destruct m; reflexivity.
Qed.

(** The targets of a header. *)
Lemma header_targets_spec h : header_wf h ->
  match header_targets h with
  | Ok l => forall p, h_product h = [p] -> forall m, In m l <-> addressed (h_magic h) p m
  | Err e => e = ValueError /\ forall m, h_magic h <> s2l (magic_of m)
  end.
Proof.
  intros (Hm & _ & (p & Hp & Bp) & _). unfold header_targets, header_product_id.
  rewrite Hp. rewrite (bits_get_byte p Bp). cbn [section_get rbind].
  set (models := filter _ MODELS).
  assert (IM : forall m, In m models <-> h_magic h = s2l (magic_of m)).
  { intros m. unfold models. rewrite filter_In, leqb_spec, magic_table. unfold header_magic, string_get.
    split.
    - intros [_ E]. apply rstrip_magic; auto.
    - intros E. split; [apply all_models|]. rewrite E. destruct m; reflexivity. }
  set (fl := filter (fun m => model_product_id m =? p) models).
  assert (IF : forall m, In m fl <-> h_magic h = s2l (magic_of m) /\ model_product_id m = p).
  { intros m. unfold fl. rewrite filter_In, IM, Z.eqb_eq. tauto. }
  clearbody models fl.
  destruct (negb (p =? 0) && negb (match fl with [] => true | _ => false end)) eqn:E.
  - apply andb_true_iff in E as [E1 E2]. apply negb_true_iff, Z.eqb_neq in E1.
    intros q Hq. assert (q = p) by congruence. subst q. intros m. rewrite IF. unfold addressed. split.
    + intros [A B]. split; auto.
    + intros [A [B|[B|B]]]; auto; try contradiction. split; auto. exfalso. apply B.
      destruct fl as [|x fl]; [discriminate|]. exists x. apply IF. now left.
  - destruct models as [|x models].
    + split; auto. intros m Q. now apply IM in Q.
    + intros q Hq. assert (q = p) by congruence. subst q. intros m. rewrite IM. unfold addressed. split.
      * intros A. split; auto. destruct (Z.eq_dec p 0) as [|N]; auto. right. right. intros (y & Y1 & Y2).
        apply andb_false_iff in E as [E|E].
        { apply negb_false_iff, Z.eqb_eq in E. contradiction. }
        apply negb_false_iff in E. assert (In y fl) by (apply IF; auto). now destruct fl.
      * tauto.
Qed.

Lemma header_targets_total h : header_wf h ->
  (exists m, h_magic h = s2l (magic_of m)) -> exists m l, header_targets h = Ok (m :: l).
Proof.
  intros W [m Hm]. pose proof (header_targets_spec h W) as S. destruct W as (_ & _ & (p & Hp & _) & _).
  destruct (header_targets h) as [l|e].
  - destruct l as [|x l]; eauto. exfalso. specialize (S p Hp).
    destruct (filter (fun x => model_product_id x =? p) (filter (fun x => leqb (h_magic h) (s2l (magic_of x))) MODELS)) as [|y t] eqn:F.
    + assert (A : addressed (h_magic h) p m).
      { split; auto. right. right. intros (x & X1 & X2).
        assert (I : In x []). { rewrite <- F. apply filter_In. split; [apply filter_In; split; [apply all_models|]|].
          - now apply leqb_spec. - now apply Z.eqb_eq. } exact I. }
      now apply S in A.
    + assert (I : In y (y :: t)) by now left. rewrite <- F in I. apply filter_In in I as [I1 I2]. apply filter_In in I1 as [_ I1].
      apply leqb_spec in I1. apply Z.eqb_eq in I2. assert (A : addressed (h_magic h) p y) by (split; auto). now apply S in A.
  - destruct S as [_ S]. now apply S in Hm.
Qed.

Lemma default_header_targets m : exists h l,
  header_default (Some m) = ([], Ok h) /\ header_targets h = Ok l /\ In m l.
Proof.
  destruct m; (eexists; eexists; split; [vm_compute; reflexivity|]; split; [vm_compute; reflexivity|]; simpl; tauto).
Qed.

(** ** Features *)
Definition has_table (m : model) (f : feature) : bool :=
  match has m f with Ok b => b | Err _ => false end.

(** ** Extension lookup *)
Lemma ext_get_in exts k v : ext_get exts k = Some v -> In (k, v) exts.
Proof.
  induction exts as [|[k' v'] r IH]; simpl; [discriminate|].
  destruct (match k', k with None, None => true | Some a, Some b => model_eqb a b | _, _ => false end) eqn:E.
  - intros H. injection H as ->. left. f_equal. destruct k', k; try discriminate; auto.
    apply model_eqb_spec in E. now subst.
  - intros H. right. now apply IH.
Qed.

Lemma min_star_spec order l :
  match min_star order l with
  | Ok m => (2 <= length l)%nat /\ In m l
  | Err e => e = TypeError /\ (length l < 2)%nat
  end.
Proof.
  destruct l as [|a [|b l]]; simpl; auto with arith.
  split; [lia|].
  assert (G : forall l best, In (min_from order best l) (best :: l)).
  { induction l0 as [|x l0 IH]; intros best; cbn [min_from]; [now left|].
    destruct (IH (if model_lt order x best then x else best)) as [E|E].
    - rewrite <- E. destruct (model_lt order x best); simpl; auto.
    - simpl; auto. }
  destruct (model_lt order b a); destruct (G l b) as [E|E], (G l a) as [E2|E2]; auto.
Qed.

Lemma min_from_least order l best m : In m (best :: l) -> order (min_from order best l) <= order m.
Proof.
  revert best m. induction l as [|x l IH]; intros best m; cbn [min_from].
  - intros [->|[]]. lia.
  - intros H. unfold model_lt, model_ge. destruct (order best <=? order x) eqn:E; cbn [negb].
    + apply Z.leb_le in E. destruct H as [->|[->|H]].
      * apply IH. now left.
      * specialize (IH best best (or_introl eq_refl)). lia.
      * apply IH. now right.
    + apply Z.leb_gt in E. destruct H as [->|[->|H]].
      * specialize (IH x x (or_introl eq_refl)). lia.
      * apply IH. now left.
      * apply IH. now right.
Qed.
