(** C161: a file that is cut short is never opened silently. *)
From Verif Require Import L_Base M_Data M_Flags M_Models M_Class M_Var S_Data L_Data L_Flags S_Var L_Models P_Models L_Var L_VarFile P_Var.

(** A warning about lengths or the checksum. *)
Definition length_warning (x : warning) : Prop := x = WMetaLength \/ x = WDataLength \/ x = WEntriesLength \/ x = WChecksum.

Lemma read_facts n s d s' : st_read n s = (d, s') -> d = firstn n (skipn (st_pos s) (st_buf s)) /\ st_buf s' = st_buf s /\ st_pos s' = (st_pos s + length d)%nat.
Proof. intros H. unfold st_read, st_rest in H. injection H as <- <-. auto. Qed.
Lemma warn_if_ok b x w u : owarn_if b x = (w, Ok u) -> ~ In x w -> b = false.
Proof. unfold owarn_if, owarn. destruct b; [|reflexivity]. intros H N. injection H as <- _. exfalso. apply N. now left. Qed.
Lemma le_int_two_bytes (a : bytes) : wf_bytes a -> 0 <= le_int a.
Proof. intros W. now apply le_int_nonneg. Qed.

Lemma Forall2_weaken {A B} (P Q : A -> B -> Prop) l m : (forall a b, P a b -> Q a b) -> Forall2 P l m -> Forall2 Q l m.
Proof. intros H F. induction F; constructor; auto. Qed.
(** The two length words at the head of the bytes of an entry account for all of them. *)
Definition own_length (d : bytes) : Prop := 15 <= zlen d /\ zlen d = 4 + le_int (firstn 2 d) + le_int (firstn 2 (skipn 2 d)).
(** Without those warnings, the next entry is all there. *)
Lemma next_full s w len s1 d s2 : wf_bytes (st_buf s) -> next_entry_length s = (w, Ok (len, s1)) -> ~ In WMetaLength w ->
  st_read (Z.to_nat len) s1 = (d, s2) -> zlen d = len ->
  15 <= len /\ st_buf s2 = st_buf s /\ st_pos s2 = (st_pos s + length d)%nat /\ d = firstn (length d) (st_rest s) /\ (st_pos s + length d <= length (st_buf s))%nat /\ own_length d.
Proof.
  intros W N NW R L. unfold next_entry_length in N.
  destruct (st_read 2 s) as [a t1] eqn:E1. destruct (st_read 2 t1) as [b t2] eqn:E2.
  pose proof (st_read_wf _ _ _ _ E1 W) as [Wa B1]. pose proof (st_read_wf _ _ _ _ E2 ltac:(now rewrite B1)) as [Wb B2].
  apply read_facts in E1 as (A1 & _ & P1). apply read_facts in E2 as (A2 & _ & P2).
  apply obind_ok in N as (w1 & u & w2 & O & N & ->). unfold oret in N. injection N as <- <- <-.
  rewrite app_nil_r in NW. apply warn_if_ok in O; [|exact NW]. apply negb_false_iff in O. apply orb_true_iff in O.
  apply le_int_nonneg in Wb. assert (M : le_int a = 11 \/ le_int a = 13) by (destruct O as [O|O]; lia).
  apply read_facts in R as (D & BD & PD). cbn [st_seek st_buf st_pos] in *.
  assert (LA : length a = Nat.min 2 (length (st_buf s) - st_pos s)) by (rewrite A1, firstn_length, skipn_length; reflexivity).
  assert (LB : length b = Nat.min 2 (length (st_buf s) - st_pos t1)) by (rewrite A2, firstn_length, skipn_length, B1; reflexivity).
  assert (LD : length d = Nat.min (Z.to_nat (2 + le_int a + 2 + le_int b)) (length (st_buf t2) - Z.to_nat (Z.max 0 (Z.of_nat (st_pos t2) + -4)))) by (rewrite D, firstn_length, skipn_length; reflexivity).
  rewrite B2, B1 in *. unfold zlen in L.
  assert (F : (4 <= length (st_buf s) - st_pos s)%nat).
  { clear - LA LB LD L M Wb P1 P2. lia. }
  assert (P : Z.to_nat (Z.max 0 (Z.of_nat (st_pos t2) + -4)) = st_pos s) by (clear - LA LB P1 P2 F; lia).
  rewrite P in *. split; [clear - M Wb; lia|]. split; [congruence|]. split; [exact PD|]. split.
  { unfold st_rest. rewrite D at 1. f_equal. clear - L. lia. }
  split; [clear - LD F; lia|].
  assert (G : (15 <= length d)%nat) by (clear - L M Wb; lia).
  assert (X : forall k, firstn 2 (skipn k (skipn (st_pos s) (st_buf s))) = firstn 2 (skipn k d) \/ (length d < k + 2)%nat).
  { intros k. destruct (Nat.lt_ge_cases (length d) (k + 2)) as [Q|Q]; [now right|left]. rewrite D, skipn_firstn_comm, firstn_firstn.
    f_equal. rewrite <- L. clear - Q. lia. }
  assert (Ea : firstn 2 d = a) by (rewrite A1; destruct (X 0%nat) as [Q|Q]; [symmetry; exact Q|clear - Q G; lia]).
  assert (Eb : firstn 2 (skipn 2 d) = b).
  { destruct (X 2%nat) as [Q|Q]; [|clear - Q G; lia]. rewrite <- Q, A2, P1, skipn_skipn'. do 2 f_equal. clear - LA F. lia. }
  unfold own_length, zlen. rewrite Ea, Eb. clear - L G. lia.
Qed.

Section Load.
  Variable ns : cls -> str -> out bytes.
  Variable gv : entry -> option bytes -> out Z.
  Variable ps : bytes -> option bool.
  Variable order : model -> Z.
  Variable so : list model -> list model.

(** Each entry is what the bytes of its own slice of the file load as. *)
Lemma entries_full fuel : forall left s v w left' s' v', wf_bytes (st_buf s) -> (st_pos s <= length (st_buf s))%nat -> left <= 4 * Z.of_nat fuel ->
  load_entries ns gv ps fuel left s v = (w, Ok (left', s', v')) -> ~ In WMetaLength w -> ~ In WDataLength w ->
  exists ds es, st_rest s = concat ds ++ st_rest s' /\ st_buf s' = st_buf s /\ (st_pos s' <= length (st_buf s))%nat /\ zlen (concat ds) = left - left' /\
    v_entries v' = v_entries v ++ es /\ Forall2 (fun d e => own_length d /\ exists w', entry_load ps KEntry d = (w', Ok e) /\ incl w' w) ds es.
Proof.
  induction fuel as [|fuel IH]; intros left s v w left' s' v' W P F H N1 N2; cbn [load_entries] in H; destruct (left <=? 0) eqn:L.
  1,3: injection H as <- <- <- <-; exists [], []; cbn [concat app]; split; [reflexivity|]; split; [reflexivity|]; split; [exact P|]; split; [unfold zlen; cbn; lia|]; split; [now rewrite app_nil_r|constructor].
  - lia.
  - apply obind_ok in H as (wa & v1 & w1 & A & H & ->). apply obind_ok in H as (wn & p & w2 & N & H & ->).
    destruct p as [len s1]. destruct (st_read (Z.to_nat len) s1) as [d s2] eqn:Es.
    apply obind_ok in H as (we & e & w3 & EL & H & ->). apply obind_ok in H as (wd & u & w4 & WD & H & ->).
    rewrite !in_app_iff in N1, N2. apply warn_if_ok in WD as ZD; [|tauto]. apply negb_false_iff, Z.eqb_eq in ZD.
    destruct (next_full s wn len s1 d s2 W N ltac:(tauto) Es ZD) as (G & B & PP & DD & LE & OL).
    apply add_entry_len in A as (xe & A1 & A2 & A3).
    apply IH in H; [|now rewrite B|rewrite B, PP; exact LE|lia|tauto|tauto].
    destruct H as (ds & es & R & B' & P' & Z' & V & FF). exists (d :: ds), (e :: es). cbn [concat].
    split; [|split; [congruence|split; [rewrite <- B; exact P'|split; [|split]]]].
    + rewrite <- app_assoc, <- R. unfold st_rest. rewrite B, PP. unfold st_rest in DD. rewrite DD at 1.
      rewrite <- skipn_skipn'. now rewrite firstn_skipn.
    + rewrite zlen_app. lia.
    + rewrite V. cbn [v_entries]. rewrite A1, removelast_snoc, <- app_assoc. reflexivity.
    + constructor.
      * split; [exact OL|]. exists we. split; [exact EL|]. intros x I. rewrite !in_app_iff. tauto.
      * eapply Forall2_weaken; [|exact FF]. cbn. intros d' e' (O' & w' & E' & I'). split; [exact O'|]. exists w'. split; [exact E'|]. intros x I. rewrite !in_app_iff. right. right. right. right. now apply I'.
Qed.
(** A file opened without such a warning is a header of 53 bytes, a length word, as many
    bytes of entries, and the checksum of what was loaded; each entry is what its own
    bytes load as. *)
Theorem C161_full : forall v b w v', wf_bytes b -> var_load ns gv ps order so v b = (w, Ok v') -> (forall x, In x w -> ~ length_warning x) ->
  exists hd n ds c rest, b = hd ++ n ++ concat ds ++ c ++ rest /\ length hd = 53%nat /\ length n = 2%nat /\ zlen (concat ds) = le_int n /\
    length c = 2%nat /\ checksum v' = Ok c /\ v_header v' = header_load hd /\
    Forall2 (fun d e => own_length d /\ exists w', entry_load ps KEntry d = (w', Ok e) /\ incl w' w) ds (v_entries v').
Proof.
  intros v b w v' W H NW. unfold var_load in H.
  destruct (st_read 53 (Stream b 0)) as [hd s1] eqn:E1. destruct (st_read 2 s1) as [n s2] eqn:E2.
  pose proof (st_read_rest 53 (Stream b 0)) as R1. pose proof (st_read_rest 2 s1) as R2. rewrite E1 in R1. rewrite E2 in R2. cbn [snd] in R1, R2.
  pose proof (st_read_wf _ _ _ _ E1 W) as [Wh B1]. cbn [st_buf] in B1. pose proof (st_read_wf _ _ _ _ E2 ltac:(now rewrite B1)) as [Wn B2].
  apply read_facts in E1 as (A1 & _ & P1). apply read_facts in E2 as (A2 & _ & P2). cbn [st_buf st_pos skipn Nat.add] in *.
  assert (LH : length hd = Nat.min 53 (length b)) by (rewrite A1; apply firstn_length).
  assert (LN : length n = Nat.min 2 (length b - st_pos s1)) by (rewrite A2, firstn_length, skipn_length, B1; reflexivity).
  apply obind_ok in H as (w1 & p & w2 & LE & H & ->). destruct p as [[left' s3] v3].
  apply obind_ok in H as (w3 & u & w4 & WE & H & ->). destruct (st_read 2 s3) as [c s4] eqn:E3.
  apply obind_ok in H as (w5 & u' & w6 & MC & H & ->). apply obind_ok in H as (w7 & c' & w8 & CK & H & ->).
  apply obind_ok in H as (w9 & u'' & w10 & WC & H & ->). unfold oret in H. injection H as <- <-.
  assert (NI : forall x, length_warning x -> ~ In x w1 /\ ~ In x w3 /\ ~ In x w9).
  { intros x LW. assert (Q : ~ In x (w1 ++ w3 ++ w5 ++ w7 ++ w9 ++ [])) by (intros I; exact (NW x I LW)). rewrite !in_app_iff in Q. tauto. }
  unfold length_warning in NI.
  apply warn_if_ok in WE; [|apply NI; tauto]. apply warn_if_ok in WC; [|apply NI; tauto].
  apply negb_false_iff in WC. apply leqb_spec in WC. subst c'.
  assert (LS : checksum v3 = Ok c) by (destruct (checksum v3); [injection CK as _ ->; reflexivity|discriminate CK]).
  assert (LC : length c = 2%nat).
  { unfold checksum in LS. destruct (rmapM entry_bytes (v_entries v3)) as [bs|]; [|discriminate LS]. cbn [rbind] in LS.
    unfold to_bytes_le in LS. destruct (fits 2 _); [|discriminate LS]. injection LS as <-. reflexivity. }
  pose proof (le_int_nonneg n Wn) as NN.
  assert (PB : (st_pos s2 <= length b)%nat) by (clear - P1 P2 LH LN; lia).
  assert (B2' : st_buf s2 = b) by congruence.
  pose proof (load_entries_bound ns gv ps (Z.to_nat (le_int n)) (le_int n) s2 _ w1 left' s3 v3 ltac:(now rewrite B2') ltac:(clear - NN; lia) LE) as (LB & _ & HV & _ & _).
  destruct (entries_full (Z.to_nat (le_int n)) (le_int n) s2 _ w1 left' s3 v3 ltac:(now rewrite B2') ltac:(now rewrite B2') ltac:(clear - NN; lia) LE (proj1 (NI _ (or_introl eq_refl))) (proj1 (NI _ (or_intror (or_introl eq_refl)))))
    as (ds & es & R & B3 & P3 & ZD & V & FF). cbn [v_entries app] in V.
  assert (E0 : left' = 0) by (apply Z.ltb_ge in WE; clear - WE LB; lia). subst left'.
  apply read_facts in E3 as (A3 & _ & _).
  assert (L3 : (2 <= length (st_rest s3))%nat) by (unfold st_rest; rewrite A3, firstn_length in LC; clear - LC; lia).
  assert (RB : skipn 55 b = concat ds ++ st_rest s3).
  { rewrite <- R, R2, R1. unfold st_rest. cbn [st_buf st_pos]. change (skipn 0 b) with b. replace 55%nat with (53 + 2)%nat by reflexivity. now rewrite <- skipn_skipn'. }
  assert (LB55 : (57 <= length b)%nat).
  { apply (f_equal (@length Z)) in RB. rewrite skipn_length, app_length in RB. clear - RB L3. lia. }
  exists hd, n, ds, c, (skipn 2 (st_rest s3)).
  split; [|split; [clear - LH LB55; lia|split; [clear - LN P1 LH LB55; lia|split; [clear - ZD; lia|split; [exact LC|split; [exact LS|split; [exact HV|]]]]]]].
  - assert (C : c = firstn 2 (st_rest s3)) by exact A3. rewrite C, firstn_skipn, <- RB, A1, A2, B1, P1.
    assert (X : length hd = 53%nat) by (clear - LH LB55; lia). rewrite X. replace 55%nat with (53 + 2)%nat by reflexivity.
    rewrite <- skipn_skipn'. now rewrite (firstn_skipn 2), firstn_skipn.
  - rewrite V. eapply Forall2_weaken; [|exact FF]. cbn. intros d e (O & w' & E & I). split; [exact O|]. exists w'. split; [exact E|]. intros x Ix. apply in_app_iff. left. now apply I.
Qed.
(** A saved file that is cut anywhere cannot be opened, or not without a warning. *)
Theorem C161_cut : forall v b k v0 w v', header_wf (v_header v) -> Forall storable (v_entries v) -> wf_bytes b -> entry_length v < 65536 -> var_bytes v = Ok b -> (k < length b)%nat ->
  var_load ns gv ps order so v0 (firstn k b) = (w, Ok v') -> exists x, In x w /\ length_warning x.
Proof.
  intros v b k v0 w v' HW S W L E K H.
  assert (DEC : (exists x, In x w /\ length_warning x) \/ (forall x, In x w -> ~ length_warning x)).
  { clear. induction w as [|y w IH]; [right; intros x []|]. unfold length_warning in *.
    assert (D : length_warning y \/ ~ length_warning y) by (unfold length_warning; destruct y; first [right; intros [Q|[Q|[Q|Q]]]; discriminate Q | left; tauto]).
    destruct D as [D|D]; [left; exists y; split; [now left|exact D]|]. destruct IH as [(x & I & X)|IH]; [left; exists x; split; [now right|exact X]|].
    right. intros x [<-|I]; [exact D|now apply IH]. }
  destruct DEC as [D|D]; [exact D|]. exfalso.
  destruct (C161_full v0 (firstn k b) w v' (wf_firstn k b W) H D) as (hd & n & ds & c & rest & Q & L1 & L2 & L3 & L4 & _).
  assert (LB : zlen b = 57 + le_int (firstn 2 (skipn 53 b))).
  { clear - HW S L E. rewrite var_bytes_image in E by auto. injection E as <-. rewrite entry_length_spec in L by auto.
    assert (LH : length (header_bytes (v_header v)) = 53%nat).
    { destruct HW as (A & B & (p & C & _) & E). unfold header_bytes. rewrite !app_length, A, B, C, E. reflexivity. }
    unfold file_image. rewrite skipn_app_exact by exact LH. rewrite firstn_app_exact by reflexivity. rewrite le_int_le16 by (pose proof (zlen_nonneg (concat (map image_of (v_entries v)))); lia).
    rewrite !zlen_app. replace (zlen (header_bytes (v_header v))) with 53 by (unfold zlen; rewrite LH; reflexivity). repeat match goal with |- context [zlen (le16 ?x)] => change (zlen (le16 x)) with 2 end. lia. }
  assert (LK : length (firstn k b) = k) by (rewrite firstn_length; lia).
  assert (K55 : (57 <= k)%nat) by (rewrite <- LK, Q, !app_length, L1, L2, L4; lia).
  assert (N : n = firstn 2 (skipn 53 b)).
  { rewrite <- (firstn_skipn k b) at 1. rewrite Q, <- !app_assoc, skipn_app_exact by exact L1. now rewrite firstn_app_exact by exact L2. }
  rewrite <- N in LB. apply (f_equal zlen) in Q. rewrite !zlen_app, L3 in Q. unfold zlen in *. rewrite LK, L1, L2, L4 in Q. lia.
Qed.
End Load.
Print Assumptions C161_full.
Print Assumptions C161_cut.

(** A program on its own, cut in the data, in the checksum and in the header. *)
Example C161_example : exists b w1 v1 w2 v2 w3 v3, var_bytes (Var some_header [hello] None) = Ok b /\ header_wf some_header /\ Forall storable [hello] /\ zlen b = 57 + 24 /\
  var_load ns0 gv0 ps0 model_index so0 (Var some_header [] None) (firstn 70 b) = (w1, Ok v1) /\ In WDataLength w1 /\
  var_load ns0 gv0 ps0 model_index so0 (Var some_header [] None) (firstn 80 b) = (w2, Ok v2) /\ In WChecksum w2 /\ ~ In WDataLength w2 /\
  var_load ns0 gv0 ps0 model_index so0 (Var some_header [] None) (firstn 20 b) = (w3, Ok v3) /\ In WChecksum w3 /\ v_entries v3 = [].
Proof.
  do 7 eexists. split; [vm_compute; reflexivity|]. split; [repeat split; exists 10; split; [reflexivity|unfold is_byte; lia]|].
  split; [constructor; [apply hello_restorable|constructor]|]. split; [vm_compute; reflexivity|].
  split; [vm_compute; reflexivity|]. split; [vm_compute; tauto|]. split; [vm_compute; reflexivity|]. split; [vm_compute; tauto|].
  split; [vm_compute; intuition discriminate|]. split; [vm_compute; reflexivity|]. split; [vm_compute; tauto|]. reflexivity.
Qed.
(** More than the saved bytes is not noticed: what follows the checksum is not looked at. *)
Theorem C161_longer_refuted : forall extra, exists b v', var_bytes (Var some_header [hello] None) = Ok b /\
  var_load ns0 gv0 ps0 model_index so0 (Var some_header [] None) (b ++ extra) = ([], Ok v').
Proof. intros extra. do 2 eexists. split; [vm_compute; reflexivity|]. vm_compute. reflexivity. Qed.
Print Assumptions C161_longer_refuted.
