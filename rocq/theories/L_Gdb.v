(** Lemmas about GDBs and settings. *)
From Verif Require Import L_Base M_Data M_Flags M_Models M_Class M_Var M_List M_Gdb S_Data L_Data S_Var L_Models L_Var L_List L_Pic S_Gdb.

Lemma eq_section_app q rest : eqn_ok q -> eq_section (eqn_bytes q ++ rest) = (eqn_bytes q, rest).
Proof.
  intros H. unfold eqn_ok in H. pose proof (zlen_nonneg (x_body q)) as P. unfold eq_section, eqn_bytes. rewrite <- app_comm_cons, <- app_assoc.
  change (rd 1 (x_flag q :: ?l)) with ([x_flag q], l). cbv iota beta zeta.
  unfold rd at 1. rewrite firstn_app_exact, skipn_app_exact by reflexivity. rewrite le_int_le16 by lia. unfold rd.
  rewrite to_nat_zlen, firstn_app_exact, skipn_app_exact by reflexivity. reflexivity.
Qed.
Lemma read_equations_app qs rest : Forall eqn_ok qs ->
  read_equations (length qs) (concat (map eqn_bytes qs) ++ rest) = (map eqn_bytes qs, rest).
Proof.
  induction 1 as [|q qs H F IH]; [reflexivity|]. cbn [length map concat read_equations]. rewrite <- app_assoc, eq_section_app by exact H. now rewrite IH.
Qed.
Lemma skip_equations_app qs rest : Forall eqn_ok qs ->
  skip_equations (length qs) (concat (map eqn_bytes qs) ++ rest) = rest.
Proof.
  induction 1 as [|q qs H F IH]; [reflexivity|]. cbn [length map concat skip_equations]. rewrite <- app_assoc, eq_section_app by exact H. exact IH.
Qed.
Definition sing (x : Z) : bytes := [x].
Lemma read_singles_app l rest : read_singles (length l) (l ++ rest) = (map sing l, rest).
Proof. induction l as [|x l IH]; [reflexivity|]. cbn [length app read_singles map]. unfold rd. cbn [firstn skipn]. now rewrite IH. Qed.

Lemma spread_length r l : length (spread r l) = (length l * r)%nat.
Proof. unfold spread. induction l as [|x l IH]; [reflexivity|]. cbn [flat_map]. rewrite app_length, repeat_length, IH. cbn [length]. lia. Qed.
Lemma spread_nth r l i : (0 < r)%nat -> (i < length l * r)%nat -> nth_error (spread r l) i = nth_error l (i / r).
Proof.
  intros R. revert i. unfold spread. induction l as [|x l IH]; intros i H; [cbn in H; lia|]. cbn [flat_map]. cbn [length] in H. destruct (Nat.lt_ge_cases i r) as [L | G].
  - rewrite nth_error_app1 by (rewrite repeat_length; lia). rewrite Nat.div_small by lia. cbn [nth_error]. apply nth_error_repeat. exact L.
  - rewrite nth_error_app2 by (rewrite repeat_length; lia). rewrite repeat_length, IH by lia.
    replace i with ((i - r) + 1 * r)%nat at 2 by lia. rewrite Nat.div_add by lia. rewrite Nat.add_1_r. reflexivity.
Qed.
Lemma zip_nth ds : forall ss cs i d s c, nth_error ds i = Some d -> nth_error ss i = Some s -> nth_error cs i = Some c ->
  nth_error (zip_equations ds ss cs) i = Some (Geq d (Some s) (Some c)).
Proof.
  induction ds as [|d0 ds IH]; intros [|s0 ss] [|c0 cs] [|i] d s c D S C; cbn in *; try discriminate; [congruence|]. eapply IH; eauto.
Qed.
Lemma zip_length ds : forall ss cs, length ss = length ds -> length cs = length ds -> length (zip_equations ds ss cs) = length ds.
Proof. induction ds as [|d ds IH]; intros [|s ss] [|c cs] S C; cbn in *; try lia. rewrite IH; lia. Qed.
Lemma zip_data ds : forall ss cs, length ss = length ds -> length cs = length ds -> map q_data (zip_equations ds ss cs) = ds.
Proof. induction ds as [|d ds IH]; intros [|s ss] [|c cs] S C; cbn in *; try lia; try reflexivity. rewrite IH by lia. reflexivity. Qed.

Lemma put_seq {A} (i : nat) (v d : A) l : (i < length l)%nat -> put i v l = map (fun k => if Nat.eqb k i then v else nth k l d) (seq 0 (length l)).
Proof.
  unfold put. revert i. induction l as [|x l IH]; intros i H; [cbn in H; lia|]. destruct i as [|i].
  - cbn [firstn skipn app length seq map nth]. f_equal. rewrite <- seq_shift, map_map. cbn [Nat.eqb]. rewrite <- (map_id l) at 1. clear.
    induction l as [|y l IHl]; [reflexivity|]. cbn [map length seq nth]. f_equal. rewrite <- seq_shift, map_map. exact IHl.
  - cbn [firstn skipn app length seq map nth]. cbn [Nat.eqb]. f_equal. change (firstn i l ++ v :: skipn (S i) l) with (put i v l). unfold put. rewrite IH by (cbn in H; lia).
    rewrite <- seq_shift, map_map. reflexivity.
Qed.
Lemma replace_seq {A} (i : nat) (v d : A) l : replace_at i v l = map (fun k => if Nat.eqb k i then v else nth k l d) (seq 0 (length l)).
Proof.
  unfold replace_at. assert (G : forall a, map (fun p : nat * A => if Nat.eqb (fst p) i then v else snd p) (combine (seq a (length l)) l) = map (fun k => if Nat.eqb k i then v else nth (k - a) l d) (seq a (length l))).
  { induction l as [|x l IH]; intros a; [reflexivity|]. cbn [length seq combine map fst snd]. rewrite IH. f_equal; [now rewrite Nat.sub_diag|].
    apply map_ext_in. intros k Hk. apply in_seq in Hk. destruct (Nat.eqb k i); [reflexivity|]. replace (k - a)%nat with (S (k - S a)) by lia. reflexivity. }
  rewrite G. apply map_ext. intros k. now rewrite Nat.sub_0_r.
Qed.
Lemma put_replace {A} i (v : A) l : (i < length l)%nat -> put i v l = replace_at i v l.
Proof. intros H. rewrite (put_seq i v v l H), (replace_seq i v v l). reflexivity. Qed.
Lemma replace_length {A} i (v : A) l : length (replace_at i v l) = length l.
Proof. rewrite (replace_seq i v v), map_length, seq_length. reflexivity. Qed.
Lemma replace_nth {A} i (v : A) l j : (i < length l)%nat -> nth_error (replace_at i v l) j = if Nat.eqb j i then Some v else nth_error l j.
Proof.
  intros H. rewrite (replace_seq i v v l). destruct (Nat.lt_ge_cases j (length l)) as [L | G].
  - assert (E : nth_error (seq 0 (length l)) j = Some j). { rewrite (nth_error_nth' _ 0%nat) by (rewrite seq_length; lia). rewrite seq_nth by lia. reflexivity. }
    rewrite (map_nth_error _ _ _ E). destruct (Nat.eqb j i); [reflexivity|]. symmetry. now apply nth_error_nth'.
  - replace (Nat.eqb j i) with false by (symmetry; apply Nat.eqb_neq; lia). rewrite (proj2 (nth_error_None l j)) by lia. apply nth_error_None. rewrite map_length, seq_length. lia.
Qed.
Lemma map_replace {A B} (f : A -> B) i v l : map f (replace_at i v l) = replace_at i (f v) (map f l).
Proof.
  destruct l as [|d l]; [reflexivity|]. rewrite (replace_seq i v d), (replace_seq i (f v) (f d)), map_map, map_length. apply map_ext. intros k. destruct (Nat.eqb k i); [reflexivity|]. symmetry. apply map_nth.
Qed.
Lemma put_nth {A} i (v : A) l j d : (i < length l)%nat -> nth j (put i v l) d = if Nat.eqb j i then v else nth j l d.
Proof.
  intros H. rewrite (put_replace i v l H). destruct (Nat.lt_ge_cases j (length l)) as [L | G].
  - apply nth_error_nth. rewrite replace_nth by exact H. destruct (Nat.eqb j i); [reflexivity|]. now apply nth_error_nth'.
  - replace (Nat.eqb j i) with false by (symmetry; apply Nat.eqb_neq; lia). rewrite !nth_overflow by (rewrite ?replace_length; lia). reflexivity.
Qed.
Lemma map_put {A B} (f : A -> B) i v l : map f (put i v l) = put i (f v) (map f l).
Proof. unfold put. rewrite map_app, firstn_map. cbn [map]. now rewrite skipn_map. Qed.
Lemma concat_sing l : concat (map sing l) = l.
Proof. induction l as [|x l IH]; [reflexivity|]. cbn [map concat sing app]. now rewrite IH. Qed.

Lemma shape_facts c p s r : shape c = Some (p, s, r) ->
  num_parameters c = p /\ num_styles c = s /\ num_equations c = (s * r)%nat /\ (num_equations c / num_styles c)%nat = r /\ (0 < r)%nat /\ (0 < s)%nat /\
  range_step (num_equations c) r = map (fun i => (r * i)%nat) (seq 0 s).
Proof. destruct c; cbn [shape]; intros H; try discriminate H; injection H as <- <- <-; repeat split; cbn; lia. Qed.

Definition colors_of (s : nat) (g : gdb) : bytes := match g_tail g with Some t => t_colors t | None => repeat 0 s end.
Lemma slice_head c p s r g : shape c = Some (p, s, r) -> length (g_head g) = (61 + 9 * p)%nat ->
  py_slice (gdb_bytes g) (Some (gdb_offset c)) None = g_styles g ++ concat (map eqn_bytes (g_eqns g)) ++ tail_bytes (g_tail g) /\
  py_slice (gdb_bytes g) None (Some (gdb_offset c)) = g_head g.
Proof.
  intros S L. destruct (shape_facts c p s r S) as (NP & _). unfold gdb_offset. rewrite NP.
  assert (E : 61 + 9 * Z.of_nat p = zlen (g_head g)) by (unfold zlen; rewrite L; lia). rewrite E. unfold gdb_bytes. split.
  - rewrite py_slice_from by apply zlen_nonneg. rewrite to_nat_zlen. now apply skipn_app_exact.
  - unfold py_slice, slice_start, slice_stop, norm_idx. pose proof (zlen_nonneg (g_head g)). rewrite zlen_app. pose proof (zlen_nonneg (g_styles g ++ concat (map eqn_bytes (g_eqns g)) ++ tail_bytes (g_tail g))).
    replace (zlen (g_head g) <? 0) with false by lia. cbn [Z.to_nat skipn]. rewrite Z.min_l by lia. rewrite Z.sub_0_r, to_nat_zlen. now apply firstn_app_exact.
Qed.
Lemma color_data_image c p s r g : shape c = Some (p, s, r) -> gdb_ok c g -> get_color_data c (gdb_bytes g) = tail_bytes (g_tail g).
Proof.
  intros S (p' & s' & r' & S' & LH & LS & LE & OK & _). rewrite S in S'. injection S' as <- <- <-. destruct (shape_facts c p s r S) as (NP & NS & NE & _).
  unfold get_color_data. rewrite NS, NE. unfold gdb_offset. rewrite NP. unfold gdb_bytes.
  rewrite py_slice_from by lia. replace (Z.to_nat (61 + 9 * Z.of_nat p + Z.of_nat s)) with (length (g_head g ++ g_styles g)) by (rewrite app_length; lia).
  rewrite app_assoc, skipn_app_exact by reflexivity. rewrite <- LE. now apply skip_equations_app.
Qed.
Lemma equations_image c p s r g : shape c = Some (p, s, r) -> gdb_ok c g ->
  equations c (gdb_bytes g) = zip_equations (map eqn_bytes (g_eqns g)) (spread r (map sing (g_styles g))) (spread r (map sing (colors_of s g))).
Proof.
  intros S (p' & s' & r' & S' & LH & LS & LE & OK & TK). rewrite S in S'. injection S' as <- <- <-. destruct (shape_facts c p s r S) as (NP & NS & NE & NR & _).
  unfold equations. destruct (slice_head c p s r g S LH) as [-> _]. unfold equations_of. rewrite NR, NS, NE.
  replace (read_singles s) with (read_singles (length (g_styles g))) by now rewrite LS. rewrite read_singles_app.
  replace (read_equations (s * r)) with (read_equations (length (g_eqns g))) by now rewrite LE. rewrite read_equations_app by exact OK.
  f_equal. f_equal. unfold colors_of, tail_bytes. destruct (g_tail g) as [t|].
  - destruct TK as (LM & LC & LR). destruct (t_magic t ++ t_colors t ++ t_rest t) as [|b l] eqn:E.
    { apply (f_equal (@length Z)) in E. rewrite !app_length, LM in E. discriminate E. }
    rewrite <- E. rewrite skipn_app_exact by exact LM. rewrite LS, <- LC, read_singles_app. reflexivity.
  - clear. induction s as [|s IH]; [reflexivity|]. cbn [repeat map]. now rewrite IH.
Qed.
Lemma colors_length c p s r g : shape c = Some (p, s, r) -> gdb_ok c g -> length (colors_of s g) = s /\ length (g_styles g) = s /\ length (g_eqns g) = (s * r)%nat.
Proof.
  intros S (p' & s' & r' & S' & LH & LS & LE & OK & TK). rewrite S in S'. injection S' as <- <- <-. split; [|auto]. unfold colors_of. destruct (g_tail g); [tauto|apply repeat_length].
Qed.
Lemma equations_nth c p s r g i : shape c = Some (p, s, r) -> gdb_ok c g -> (i < s * r)%nat ->
  nth_error (equations c (gdb_bytes g)) i = Some (Geq (eqn_bytes (nth i (g_eqns g) (Eqn 0 []))) (Some [nth (i / r) (g_styles g) 0]) (Some [nth (i / r) (colors_of s g) 0])).
Proof.
  intros S OK I. destruct (shape_facts c p s r S) as (_ & _ & _ & _ & R & _). destruct (colors_length c p s r g S OK) as (LC & LS & LE). rewrite (equations_image c p s r g S OK).
  assert (Q : (i / r < s)%nat) by (apply Nat.div_lt_upper_bound; lia).
  apply zip_nth.
  - apply map_nth_error. apply nth_error_nth'. lia.
  - rewrite spread_nth by (rewrite ?map_length; lia). change [nth (i / r) (g_styles g) 0] with (sing (nth (i / r) (g_styles g) 0)). apply map_nth_error. apply nth_error_nth'. lia.
  - rewrite spread_nth by (rewrite ?map_length; lia). change [nth (i / r) (colors_of s g) 0] with (sing (nth (i / r) (colors_of s g) 0)). apply map_nth_error. apply nth_error_nth'. lia.
Qed.
Lemma equations_length c p s r g : shape c = Some (p, s, r) -> gdb_ok c g -> length (equations c (gdb_bytes g)) = (s * r)%nat.
Proof.
  intros S OK. destruct (colors_length c p s r g S OK) as (LC & LS & LE). rewrite (equations_image c p s r g S OK).
  rewrite zip_length; rewrite ?spread_length, ?map_length; lia.
Qed.
Lemma equations_data c p s r g : shape c = Some (p, s, r) -> gdb_ok c g -> map q_data (equations c (gdb_bytes g)) = map eqn_bytes (g_eqns g).
Proof.
  intros S OK. destruct (colors_length c p s r g S OK) as (LC & LS & LE). rewrite (equations_image c p s r g S OK).
  apply zip_data; rewrite ?spread_length, ?map_length; lia.
Qed.

(** The bytes collected from the first equation of each group. *)
Definition group_bytes (r i : nat) (v : Z) (l : bytes) : bytes := if Nat.eqb (i mod r) 0 then replace_at (i / r) v l else l.
Lemma nth_seq_id (l : bytes) : map (fun k => nth k l 0) (seq 0 (length l)) = l.
Proof.
  induction l as [|x l IH]; [reflexivity|]. cbn [length seq map nth]. f_equal. rewrite <- seq_shift, map_map. exact IH.
Qed.
Lemma leaders_slot (sel : geq -> option bytes) c p s r g i v x l : shape c = Some (p, s, r) -> gdb_ok c g -> (i < s * r)%nat ->
  (Nat.eqb (i mod r) 0 = true -> sel v = Some [x]) -> length l = s ->
  (forall k, (k < s)%nat -> sel (nth (r * k) (equations c (gdb_bytes g)) fresh_equation) = Some [nth k l 0]) ->
  rmapM (fun q => slot (sel q)) (map (fun k => nth k (put i v (equations c (gdb_bytes g))) fresh_equation) (range_step (num_equations c) r)) = Ok (map sing (group_bytes r i x l)).
Proof.
  intros S OK I V L SEL. destruct (shape_facts c p s r S) as (_ & _ & _ & _ & R & _ & RS). rewrite RS. rewrite map_map.
  assert (E : map sing (group_bytes r i x l) = map (fun k => if Nat.eqb (r * k) i then [x] else [nth k l 0]) (seq 0 s)).
  { unfold group_bytes. destruct (Nat.eqb (i mod r) 0) eqn:M.
    - rewrite (replace_seq (i / r) x 0 l), map_map, L. apply map_ext. intros k. apply Nat.eqb_eq in M.
      assert (D : i = (r * (i / r))%nat) by (rewrite (Nat.div_mod i r) at 1 by lia; lia).
      replace (Nat.eqb (r * k) i) with (Nat.eqb k (i / r)); [destruct (Nat.eqb k (i / r)); reflexivity|].
      destruct (Nat.eqb_spec k (i / r)) as [-> | N]; symmetry; [apply Nat.eqb_eq; lia|apply Nat.eqb_neq]. intros X. apply N. apply (Nat.mul_cancel_l _ _ r); lia.
    - rewrite <- (nth_seq_id l) at 1. rewrite L, map_map. apply map_ext. intros k. replace (Nat.eqb (r * k) i) with false; [reflexivity|]. symmetry. apply Nat.eqb_neq. intros X.
      apply Nat.eqb_neq in M. apply M. rewrite <- X, Nat.mul_comm. apply Nat.mod_mul. lia. }
  rewrite E. clear E. assert (G : forall ks, (forall k, In k ks -> (k < s)%nat) ->
    rmapM (fun q => slot (sel q)) (map (fun k => nth (r * k) (put i v (equations c (gdb_bytes g))) fresh_equation) ks) = Ok (map (fun k => if Nat.eqb (r * k) i then [x] else [nth k l 0]) ks)).
  { induction ks as [|k ks IH]; intros H; [reflexivity|]. cbn [map rmapM]. rewrite put_nth by (rewrite (equations_length c p s r g S OK); exact I).
    assert (Ks : (k < s)%nat) by (apply H; now left). rewrite IH by (intros; apply H; now right).
    destruct (Nat.eqb (r * k) i) eqn:EQ.
    - apply Nat.eqb_eq in EQ. rewrite V; [reflexivity|]. apply Nat.eqb_eq. rewrite <- EQ, Nat.mul_comm. apply Nat.mod_mul. lia.
    - rewrite SEL by exact Ks. reflexivity. }
  apply G. intros k Hk. apply in_seq in Hk. lia.
Qed.

Lemma leads_eq c p s r i : shape c = Some (p, s, r) -> leads c i = Nat.eqb (i mod r) 0 /\ group_of c i = (i / r)%nat.
Proof. intros S. unfold leads, group_of. rewrite S. auto. Qed.
Lemma group_bytes_length r i v l : length (group_bytes r i v l) = length l.
Proof. unfold group_bytes. destruct (Nat.eqb (i mod r) 0); [apply replace_length|reflexivity]. Qed.

(** Assigning an equation, on the bytes. *)
Lemma set_equation_image c p s r g i v q st co : shape c = Some (p, s, r) -> gdb_ok c g -> (i < s * r)%nat ->
  q_data v = eqn_bytes q ->
  (leads c i = true -> q_style v = Some [st] /\ (g_tail g <> None -> q_color v = Some [co])) ->
  set_equation c i v (gdb_bytes g) = Ok (gdb_bytes (assign c i q st co g)).
Proof.
  intros S OK I D V. destruct (leads_eq c p s r i S) as [LD GR]. destruct (shape_facts c p s r S) as (NP & NS & NE & NR & R & SP & RS).
  destruct (colors_length c p s r g S OK) as (LC & LS & LE).
  assert (SELS : forall k, (k < s)%nat -> nth (r * k) (equations c (gdb_bytes g)) fresh_equation = Geq (eqn_bytes (nth (r * k) (g_eqns g) (Eqn 0 []))) (Some [nth k (g_styles g) 0]) (Some [nth k (colors_of s g) 0])).
  { intros k K. apply nth_error_nth. rewrite (equations_nth c p s r g) by (auto; nia). rewrite Nat.mul_comm, Nat.div_mul by lia. reflexivity. }
  unfold set_equation. cbv zeta. rewrite NR.
  rewrite (leaders_slot q_style c p s r g i v st (g_styles g) S OK I); [|rewrite <- LD; intros E; apply V, E|exact LS|intros k K; rewrite (SELS k K); reflexivity].
  cbn [rbind]. rewrite (color_data_image c p s r g S OK).
  assert (HD : length (g_head g) = (61 + 9 * p)%nat). { destruct OK as (p' & s' & r' & S' & LH & _). rewrite S in S'. injection S' as <- <- <-. exact LH. }
  destruct (slice_head c p s r g S HD) as [_ ->]. rewrite concat_sing, map_put, (equations_data c p s r g S OK), D.
  rewrite put_replace by (rewrite map_length; lia). rewrite <- map_replace.
  unfold assign. rewrite LD, GR. fold (group_bytes r i st (g_styles g)).
  destruct (g_tail g) as [t|] eqn:T.
  - assert (TK : length (t_magic t) = 3%nat /\ length (t_colors t) = s /\ length (t_rest t) = 5%nat).
    { destruct OK as (p' & s' & r' & S' & _ & _ & _ & _ & X). rewrite S in S'. injection S' as <- <- <-. rewrite T in X. exact X. }
    destruct TK as (LM & LCt & LR).
    cbn [tail_bytes]. destruct (t_magic t ++ t_colors t ++ t_rest t) as [|b l] eqn:E.
    { apply (f_equal (@length Z)) in E. rewrite !app_length, LM in E. discriminate E. }
    rewrite <- E. clear E b l.
    rewrite (leaders_slot q_color c p s r g i v co (colors_of s g) S OK I); [|rewrite <- LD; intros E; apply V; [exact E|discriminate]|exact LC|intros k K; rewrite (SELS k K); reflexivity].
    cbn [rbind]. rewrite concat_sing. unfold gdb_bytes. cbn [g_head g_styles g_eqns g_tail option_map tail_bytes t_magic t_colors t_rest].
    replace (py_slice (t_magic t ++ t_colors t ++ t_rest t) (Some (-5)) None) with (t_rest t).
    2:{ unfold py_slice, slice_start, slice_stop, norm_idx. change (-5 <? 0) with true. cbv iota. rewrite app_assoc, zlen_app. replace (zlen (t_rest t)) with 5 by (unfold zlen; rewrite LR; reflexivity).
        pose proof (zlen_nonneg (t_magic t ++ t_colors t)) as P. rewrite Z.max_l by lia. replace (-5 + (zlen (t_magic t ++ t_colors t) + 5)) with (zlen (t_magic t ++ t_colors t)) by lia.
        rewrite to_nat_zlen, skipn_app_exact by reflexivity. symmetry. apply firstn_all2. rewrite LR. lia. }
    unfold colors_of. rewrite T. rewrite <- !app_assoc. reflexivity.
  - cbn [tail_bytes]. unfold gdb_bytes. cbn [g_head g_styles g_eqns g_tail option_map tail_bytes]. rewrite app_nil_r. reflexivity.
Qed.
Lemma assign_ok c i q st co g : gdb_ok c g -> eqn_ok q -> gdb_ok c (assign c i q st co g).
Proof.
  intros (p & s & r & S & LH & LS & LE & OK & TK) Q. exists p, s, r. unfold assign. cbn [g_head g_styles g_eqns g_tail]. split; [exact S|]. split; [exact LH|].
  split; [destruct (leads c i); rewrite ?replace_length; exact LS|]. split; [rewrite replace_length; exact LE|]. split.
  - apply Forall_forall. intros x Hx. apply In_nth_error in Hx as (j & Hj). destruct (Nat.lt_ge_cases i (length (g_eqns g))) as [L | G].
    + rewrite replace_nth in Hj by exact L. destruct (Nat.eqb j i); [now injection Hj as <-|]. apply nth_error_In in Hj. rewrite Forall_forall in OK. auto.
    + assert (In x (g_eqns g)); [|rewrite Forall_forall in OK; auto]. rewrite (replace_seq i q q) in Hj. destruct (Nat.lt_ge_cases j (length (g_eqns g))) as [J | J].
      * assert (E : nth_error (seq 0 (length (g_eqns g))) j = Some j). { rewrite (nth_error_nth' _ 0%nat) by (rewrite seq_length; lia). rewrite seq_nth by lia. reflexivity. }
        rewrite (map_nth_error _ _ _ E) in Hj. injection Hj as <-. replace (Nat.eqb j i) with false by (symmetry; apply Nat.eqb_neq; lia). apply nth_In. exact J.
      * exfalso. apply nth_error_Some_bound_index in Hj || (assert (X : nth_error (map (fun k => if Nat.eqb k i then q else nth k (g_eqns g) q) (seq 0 (length (g_eqns g)))) j <> None) by congruence; apply nth_error_Some in X; rewrite map_length, seq_length in X; lia).
  - destruct (g_tail g) as [t|]; [|exact I]. cbn [option_map t_magic t_colors t_rest]. destruct TK as (LM & LC & LR). split; [reflexivity|]. split; [|exact LR]. destruct (leads c i); rewrite ?replace_length; exact LC.
Qed.

(** An entry image whose length words announce more than the data. *)
Lemma firstn_short (p : bytes) n : zlen p <= n -> firstn (Z.to_nat n) p = p.
Proof. intros H. apply firstn_all2. unfold zlen in H. lia. Qed.
Lemma load_short_13 ps c t name v a n payload :
  is_byte t -> length name = 8%nat -> 0 <= n < 65536 -> zlen payload < n -> [v; a] <> le16 n ->
  entry_load ps c (le16 13 ++ le16 n ++ [t] ++ name ++ [v; a] ++ le16 n ++ payload) =
  do _ := type_check c t in do _ := (flash_warn a, Ok tt) in do _ := owarn WDataLength in
  finish ps (Entry c [13; 0] [t] name [v] [a] (Buf true payload)).
Proof.
  intros Bt Hn Hp Hl Ha. pose proof (zlen_nonneg payload) as Hp0.
  destruct (list8 name Hn) as (n1&n2&n3&n4&n5&n6&n7&n8&->).
  assert (Ln : le_int (le16 n) = n) by (apply le_int_le16; lia).
  unfold le16 in *. set (x := n mod 256) in *. set (y := n / 256) in *.
  change (13 mod 256) with 13. change (13 / 256) with 0. cbn [app].
  unfold entry_load. rewrite ljust_id by (cbn [length]; lia). cbn [rd firstn skipn].
  rewrite (type_id_byte _ t) by (cbn; auto). rewrite obind_lift. apply obind_ext. intros _.
  change (meta_length _ =? 13) with true. cbv iota beta. rewrite obind_oret.
  apply leqb_false in Ha. change ([v] ++ [a]) with [v; a]. rewrite Ha. rewrite andb_false_r.
  rewrite archived_warn, obind_assoc. apply obind_ext. intros _.
  rewrite leqb_refl. cbn [negb]. rewrite obind_warn_false, obind_oret.
  rewrite Ln, firstn_short by lia.
  unfold calc_data_length, calc_data. cbn [with_data e_data b_data]. replace (zlen payload =? n) with false by (symmetry; apply Z.eqb_neq; lia). cbn [negb].
  reflexivity.
Qed.
Lemma load_short_11 ps c t name n payload :
  is_byte t -> length name = 8%nat -> 0 <= n < 65536 -> zlen payload < n -> 2 <= zlen payload ->
  entry_load ps c (le16 11 ++ le16 n ++ [t] ++ name ++ le16 n ++ payload) =
  do _ := type_check c t in do _ := owarn WDataLength in
  finish ps (Entry c [11; 0] [t] name [0] [0] (Buf true payload)).
Proof.
  intros Bt Hn Hp Hl H2.
  destruct (list8 name Hn) as (n1&n2&n3&n4&n5&n6&n7&n8&->).
  assert (Ln : le_int (le16 n) = n) by (apply le_int_le16; lia).
  unfold le16 in *. set (x := n mod 256) in *. set (y := n / 256) in *.
  change (11 mod 256) with 11. change (11 / 256) with 0. cbn [app].
  unfold entry_load. rewrite ljust_id by (unfold zlen in H2; cbn [length]; lia). cbn [rd firstn skipn].
  rewrite (type_id_byte _ t) by (cbn; auto). rewrite obind_lift. apply obind_ext. intros _.
  change (meta_length _ =? 13) with false. match goal with |- context [if meta_length ?e =? 11 then _ else _] => change (meta_length e =? 11) with true end. cbv iota beta. rewrite obind_oret.
  change (meta_length _ =? 13) with false. cbn [andb].
  change (negb (infix [0] [0; 128])) with false. rewrite obind_assoc, obind_warn_false, obind_assoc.
  rewrite leqb_refl. cbn [negb]. rewrite obind_warn_false, obind_oret.
  rewrite Ln, firstn_short by lia.
  unfold calc_data_length, calc_data. cbn [with_data e_data b_data]. replace (zlen payload =? n) with false by (symmetry; apply Z.eqb_neq; lia). cbn [negb].
  reflexivity.
Qed.

(** Fields. *)
Definition view_eqb (a b : view) : bool :=
  let o x y := match x, y with Some i, Some j => i =? j | None, None => true | _, _ => false end in
  o (v_start a) (v_start b) && o (v_stop a) (v_stop b).
(** Every field of a class lies inside payloads of [m] or more bytes, in the form [a:b] with 0 <= a < b or counted from the end. *)
Definition end_of (stop : option Z) : Z := match stop with Some b => b | None => 0 end.
Definition inside (m : Z) (v : view) : bool :=
  match v_start v with
  | None => false
  | Some a => if a <? 0 then (- m <=? a) && (a <? end_of (v_stop v)) && (end_of (v_stop v) <=? 0) && match v_stop v with Some b => b <? 0 | None => true end
              else match v_stop v with Some b => (a <? b) && (b <=? m) | None => false end
  end.
Definition apart (m : Z) (v w : view) : bool :=
  match v_start v, v_start w with
  | Some a, Some b =>
      if a <? 0 then (if b <? 0 then (end_of (v_stop v) <=? b) || (end_of (v_stop w) <=? a) else end_of (v_stop w) <=? m + a)
      else (if b <? 0 then end_of (v_stop v) <=? m + b else (end_of (v_stop v) <=? b) || (end_of (v_stop w) <=? a))
  | _, _ => false
  end.
Lemma inside_resolves m n v : inside m v = true -> m <= n -> exists lo hi, resolves (v_start v) (v_stop v) n lo hi /\ lo < hi.
Proof.
  unfold inside, resolves, end_of. destruct (v_start v) as [a|], (v_stop v) as [b|]; try discriminate; intros H M.
  - destruct (a <? 0) eqn:A; destruct (b <? 0) eqn:B; do 2 eexists; (split; [split; [reflexivity|split; [reflexivity|]]|]); lia.
  - destruct (a <? 0) eqn:A; [|discriminate]. do 2 eexists; (split; [split; [reflexivity|split; [reflexivity|]]|]); lia.
Qed.
Lemma apart_disjoint m n v w lo hi lo' hi' : inside m v = true -> inside m w = true -> apart m v w = true -> m <= n ->
  resolves (v_start v) (v_stop v) n lo hi -> resolves (v_start w) (v_stop w) n lo' hi' -> hi <= lo' \/ hi' <= lo.
Proof.
  unfold inside, apart, resolves, end_of. destruct (v_start v) as [a|], (v_stop v) as [b|], (v_start w) as [a'|], (v_stop w) as [b'|]; try discriminate;
    intros I1 I2 A M (-> & -> & _) (-> & -> & _);
    repeat match goal with |- context [?x <? 0] => destruct (x <? 0) eqn:? | H : context [if ?x <? 0 then _ else _] |- _ => destruct (x <? 0) eqn:? end; try discriminate; try lia.
Qed.
Definition size_min (c : cls) : Z := min_data_length c.
Lemma size_ok_min c n : size_ok c n -> size_min c <= n /\ (calc_length c = None \/ calc_length c = Some n).
Proof. destruct c; cbn; intros H; try contradiction; (split; [unfold size_min; cbn; lia|]); try (left; reflexivity); right; now subst. Qed.
Lemma fields_inside c : forallb (fun f => inside (size_min c) (snd f) && match view_length (calc_length c) (snd f) with Some _ => true | None => false end) (fields c) = true.
Proof. destruct c; vm_compute; reflexivity. Qed.
Lemma fields_apart c : forallb (fun f => forallb (fun f' => leqb (fst f) (fst f') || apart (size_min c) (snd f) (snd f')) (fields c)) (fields c) = true.
Proof. destruct c; vm_compute; reflexivity. Qed.
Lemma fields_names c : NoDup (map fst (fields c)).
Proof.
  assert (G : forall l : list str, (fix nd (l : list str) := match l with [] => true | x :: r => negb (existsb (leqb x) r) && nd r end) l = true -> NoDup l).
  { induction l as [|x l IH]; [constructor|]. intros H. apply andb_prop in H as [A B]. constructor; [|auto]. intros N. apply negb_true_iff in A. rewrite <- not_true_iff_false in A. apply A.
    apply existsb_exists. exists x. split; [exact N|apply leqb_refl]. }
  apply G. destruct c; vm_compute; reflexivity.
Qed.

Lemma py_slice_drop (a b : bytes) n : length b = n -> (0 < n)%nat -> py_slice (a ++ b) None (Some (- Z.of_nat n)) = a.
Proof.
  intros L P. unfold py_slice, slice_start, slice_stop, norm_idx. replace (- Z.of_nat n <? 0) with true by lia. cbn [Z.to_nat skipn]. rewrite zlen_app.
  pose proof (zlen_nonneg a). replace (zlen b) with (Z.of_nat n) by (unfold zlen; now rewrite L). rewrite Z.max_l by lia.
  replace (- Z.of_nat n + (zlen a + Z.of_nat n) - 0) with (zlen a) by lia. rewrite to_nat_zlen. now apply firstn_app_exact.
Qed.
Lemma mono_facts c : colour c = true -> exists p s r, shape c = Some (p, s, r) /\ shape (mono_of c) = Some (p, s, r) /\ mono_class c = Some (mono_of c, (3 + s + 5)%nat).
Proof. destruct c; cbn; intros H; try discriminate H; do 3 eexists; repeat split; reflexivity. Qed.
Lemma mode_slice g m rest : nth_error (g_head g) 3 = Some m -> gdb_mode_id (g_head g ++ rest) = m.
Proof.
  intros H. destruct (g_head g) as [|a [|b [|c [|d l]]]]; try discriminate H. injection H as ->. unfold gdb_mode_id. rewrite py_slice_nn by (rewrite ?zlen_app; unfold zlen; cbn [length]; lia).
  cbn [app]. change (Z.to_nat (4 - 3)) with 1%nat. change (Z.to_nat 3) with 3%nat. cbn [skipn firstn]. unfold integer_get. cbn [le_int]. lia.
Qed.
Lemma coerce_mono_self ps c e g : colour c = true -> e_cls e = mono_of c -> gdb_ok (mono_of c) (strip g) -> b_data (e_data e) = gdb_bytes (strip g) ->
  nth_error (g_head g) 3 = Some (mode_value c) -> coerce ps e = oret e.
Proof.
  intros C E OK D M. destruct (mono_facts c C) as (p & s & r & _ & S & _).
  assert (X : coerce_mono_gdb e = oret e).
  { unfold coerce_mono_gdb, calc_data. rewrite E, D, (color_data_image (mono_of c) p s r _ S OK). cbn [strip g_tail tail_bytes]. unfold gdb_bytes. cbn [strip g_head].
    rewrite (mode_slice g _ _ M). destruct e as [k me ty nm ve ar da]; cbn [e_cls] in E; subst k; destruct c; try discriminate C; reflexivity. }
  rewrite <- X. unfold coerce. rewrite E. destruct c; try discriminate C; unfold coerce_own; rewrite E; reflexivity.
Qed.
