(** C168: the data of any flash header with the binary flag: cut into lines, read as blocks, and
    written again. *)
From Verif Require Import PyBase M_Data M_Numeric M_Flags M_Models M_Class M_Var M_List M_Flash L_Base S_Data L_Data L_Flags S_Var L_Models L_Var S_Flash L_Flash P_Flash P_Line.

(** A line with no CR LF in it.  Specification, used for flash.py:294-334. *)
Definition unbroken (l : bytes) : Prop := forall a b, l <> a ++ 13 :: 10 :: b.
(** A line in the usual form: a colon, a count of two upper-case digits, and as many digits
    as it says.  Specification, used for flash.py:159-183. *)
Definition usual (l : bytes) : Prop :=
  exists n, 0 <= n < 256 /\ nth 0 l 0 = 58 /\ firstn 2 (skipn 1 l) = hex_text [n] /\ zlen l = 11 + 2 * n.

Lemma split_step a b s cur :
  split_lines (a :: b :: s) cur = if (a =? 13) && (b =? 10) then rev cur :: split_lines s [] else split_lines (b :: s) (a :: cur).
Proof. reflexivity. Qed.
Lemma split_some s : forall cur, exists x r, split_lines s cur = x :: r.
Proof.
  induction s as [s IH] using (well_founded_induction (Wf_nat.well_founded_ltof _ (@length Z))). intros cur.
  destruct s as [|a [|b s]]; [cbn; eauto|cbn; eauto|]. rewrite split_step. destruct ((a =? 13) && (b =? 10)); [eauto|]. apply (IH (b :: s)). unfold Wf_nat.ltof. cbn; lia.
Qed.
Lemma join_split s : forall cur, join_lines (split_lines s cur) = rev cur ++ s.
Proof.
  induction s as [s IH] using (well_founded_induction (Wf_nat.well_founded_ltof _ (@length Z))). intros cur. destruct s as [|a [|b s]].
  - cbn. now rewrite app_nil_r.
  - reflexivity.
  - rewrite split_step. destruct ((a =? 13) && (b =? 10)) eqn:E.
    + apply andb_true_iff in E as [E1 E2]. apply Z.eqb_eq in E1, E2. subst. destruct (split_some s []) as (x & r & S).
      pose proof (IH s ltac:(unfold Wf_nat.ltof; cbn; lia) []) as J. rewrite S in J |- *. cbn [rev app] in J.
      change (join_lines (rev cur :: x :: r)) with (rev cur ++ 13 :: 10 :: join_lines (x :: r)). now rewrite J.
    + rewrite (IH (b :: s)) by (unfold Wf_nat.ltof; cbn; lia). cbn [rev]. now rewrite <- app_assoc.
Qed.
Lemma unbroken_snoc l c : unbroken l -> (c = 10 -> forall a, l <> a ++ [13]) -> unbroken (l ++ [c]).
Proof.
  intros U N a b E. destruct b as [|z0 b0]; [|destruct (@exists_last Z (z0 :: b0)) as (b' & z & EB); [discriminate|]; rewrite EB in E; clear EB].
  - change (a ++ [13; 10]) with (a ++ [13] ++ [10]) in E. rewrite app_assoc in E. apply app_inj_tail in E as [E1 E2]. eapply N; [exact E2|exact E1].
  - change (a ++ 13 :: 10 :: b' ++ [z]) with (a ++ (13 :: 10 :: b') ++ [z]) in E. rewrite app_assoc in E. apply app_inj_tail in E as [E1 _]. exact (U _ _ E1).
Qed.
Lemma split_unbroken s : forall cur, unbroken (rev cur) -> (forall a t, rev cur = a ++ [13] -> s <> 10 :: t) -> Forall unbroken (split_lines s cur).
Proof.
  induction s as [s IH] using (well_founded_induction (Wf_nat.well_founded_ltof _ (@length Z))). intros cur U N.
  assert (SN : forall a t, s = a :: t -> unbroken (rev (a :: cur))).
  { intros a t ->. cbn [rev]. apply unbroken_snoc; [exact U|]. intros -> q Q. exact (N q t Q eq_refl). }
  destruct s as [|a [|b s]].
  - constructor; [exact U|constructor].
  - constructor; [apply (SN a []); reflexivity|constructor].
  - rewrite split_step. destruct ((a =? 13) && (b =? 10)) eqn:E.
    + constructor; [exact U|]. apply IH; [unfold Wf_nat.ltof; cbn; lia| |].
      * intros [|x q] r Q; discriminate Q.
      * intros [|x q] t Q; discriminate Q.
    + apply IH; [unfold Wf_nat.ltof; cbn; lia|apply (SN a (b :: s)); reflexivity|].
      intros q t Q Q2. cbn [rev] in Q. apply app_inj_tail in Q as [_ Q]. injection Q2 as Q2 _. lia.
Qed.
Lemma omapM_silent {A B} (f : A -> out B) l : forall bs, omapM f l = ([], Ok bs) -> Forall2 (fun a b => f a = ([], Ok b)) l bs.
Proof.
  induction l as [|a l IH]; intros bs H; cbn [omapM] in H.
  - apply oret_same in H. subst. constructor.
  - apply obind_silent in H as (b & E1 & H). apply obind_silent in H as (r & E2 & H). apply oret_same in H. subst. constructor; auto.
Qed.
Lemma written ls bs : Forall2 (fun l k => block_load l = ([], Ok k)) ls bs ->
  exists ts, rmapM block_bytes bs = Ok ts /\ Forall2 (fun k t => block_bytes k = Ok t /\ block_load t = ([], Ok k)) bs ts /\ (Forall usual ls -> ts = ls).
Proof.
  induction 1 as [|l k ls bs H F (ts & E1 & E2 & E3)]; [exists []; repeat split; constructor|].
  destruct (C167_again l k H) as (t & T1 & T2). exists (t :: ts). cbn [rmapM]. rewrite T1, E1. cbn [rbind]. split; [reflexivity|]. split; [constructor; auto|].
  intros U. inversion U as [|? ? U1 U2]; subst. rewrite (E3 U2). f_equal.
  destruct (C167_save l k H) as (n & d & _ & _ & R & B & S). destruct U1 as (m & M & P1 & P2 & P3).
  destruct (line_parts l k H) as (n' & d' & D' & Z' & R' & I & _ & B'). rewrite P2, int16_text in I by (unfold is_byte; lia). apply ok_inj in I. subst m.
  assert (Q : hex_text [n] = hex_text [n']).
  { rewrite B in B'. apply ok_inj in B'. apply (f_equal (fun z => firstn 2 (skipn 1 z))) in B'. exact B'. }
  assert (n = n').
  { apply (f_equal int16) in Q. rewrite !int16_text in Q by (unfold is_byte; lia). now apply ok_inj in Q. }
  subst n'. assert (block_bytes k = Ok l) by (apply S; auto). congruence.
Qed.

(** The data of any header is lines joined by CR LF, none of which contains one.  If they are
    read without a warning, each line is a block; the blocks can be written, each as a line
    that gives the block again; and if all lines have the usual form the data is as before. *)
Theorem C168_data : forall h bs, h_binary_flag h = Ok 1 -> fdata_get h = ([], Ok (DBlocks bs)) ->
  exists ls ts, h_data h = crlf_joined ls /\ Forall unbroken ls /\ Forall2 (fun l k => block_load l = ([], Ok k)) ls bs /\
    fdata_set h (DBlocks bs) = Ok (crlf_joined ts) /\ Forall2 (fun k t => block_bytes k = Ok t /\ block_load t = ([], Ok k)) bs ts /\
    (Forall usual ls -> fdata_set h (DBlocks bs) = Ok (h_data h)).
Proof.
  intros h bs B H. unfold fdata_get in H. rewrite B in H. change (1 =? 1) with true in H. apply obind_silent in H as (f & E & H). apply olift_same, ok_inj in E. subst f.
  change (1 =? 1) with true in H. cbv iota in H. apply obind_silent in H as (l & E & H). apply oret_same in H. injection H as ->.
  apply omapM_silent in E. destruct (written _ _ E) as (ts & W1 & W2 & W3). exists (split_lines (h_data h) []), ts.
  assert (J : h_data h = join_lines (split_lines (h_data h) [])) by (now rewrite join_split).
  assert (S : fdata_set h (DBlocks bs) = Ok (join_lines ts)).
  { unfold fdata_set. rewrite B. cbn [rbind]. change (1 =? 1) with true. cbv iota. now rewrite W1. }
  split; [exact J|]. split; [apply split_unbroken; [intros [|x q] r Q; discriminate Q|intros [|x q] t Q; discriminate Q]|].
  split; [exact E|]. split; [exact S|]. split; [exact W2|]. intros U. rewrite S, (W3 U). now rewrite <- J.
Qed.
Print Assumptions C168_data.
Lemma unbroken_tail a l : unbroken (a :: l) -> unbroken l.
Proof. intros U p q ->. exact (U (a :: p) q eq_refl). Qed.
Lemma unbroken_skipn n l : unbroken l -> unbroken (skipn n l).
Proof. revert l. induction n as [|n IH]; intros [|a l] U; try exact U. apply IH. now apply unbroken_tail in U. Qed.
Lemma unbroken_firstn n l : unbroken l -> unbroken (firstn n l).
Proof. intros U p q E. apply (U p (q ++ skipn n l)). rewrite <- (firstn_skipn n l) at 1. rewrite E. now rewrite <- app_assoc. Qed.
Lemma unbroken_cons a l : a <> 13 -> unbroken l -> unbroken (a :: l).
Proof. intros N U [|x p] q E; injection E as E1 E2; [congruence|]. exact (U _ _ E2). Qed.
Lemma cut_here x : forall r cur, unbroken x -> split_lines (x ++ 13 :: 10 :: r) cur = (rev cur ++ x) :: split_lines r [].
Proof.
  induction x as [|a x IH]; intros r cur U; [cbn [app]; rewrite split_step, app_nil_r; reflexivity|].
  assert (S : split_lines ((a :: x) ++ 13 :: 10 :: r) cur = split_lines (x ++ 13 :: 10 :: r) (a :: cur)).
  { destruct x as [|b x]; cbn [app]; rewrite split_step.
    - now rewrite andb_false_r.
    - destruct ((a =? 13) && (b =? 10)) eqn:E; [|reflexivity]. exfalso. apply andb_true_iff in E as [E1 E2]. apply Z.eqb_eq in E1, E2. subst. exact (U [] x eq_refl). }
  rewrite S, IH by (now apply unbroken_tail in U). cbn [rev]. now rewrite <- app_assoc.
Qed.
Lemma cut_end x : forall cur, unbroken x -> split_lines x cur = [rev cur ++ x].
Proof.
  induction x as [|a x IH]; intros cur U; [cbn; now rewrite app_nil_r|].
  assert (S : split_lines (a :: x) cur = split_lines x (a :: cur)).
  { destruct x as [|b x]; [reflexivity|]. rewrite split_step. destruct ((a =? 13) && (b =? 10)) eqn:E; [|reflexivity]. exfalso. apply andb_true_iff in E as [E1 E2]. apply Z.eqb_eq in E1, E2. subst. exact (U [] x eq_refl). }
  rewrite S, IH by (now apply unbroken_tail in U). cbn [rev]. now rewrite <- app_assoc.
Qed.
Lemma cut_joined ls : ls <> [] -> Forall unbroken ls -> split_lines (crlf_joined ls) [] = ls.
Proof.
  induction ls as [|x ls IH]; intros NE F; [congruence|]. inversion F as [|? ? F1 F2]; subst. destruct ls as [|y ls]; [now apply (cut_end x [])|].
  change (crlf_joined (x :: y :: ls)) with (x ++ 13 :: 10 :: crlf_joined (y :: ls)). rewrite cut_here by exact F1. rewrite IH; [reflexivity|discriminate|exact F2].
Qed.
Lemma hex_not_cr n : 0 <= n < 16 -> hex_char n <> 13.
Proof.
  intros N. assert (C : forall i, (i < 16)%nat -> nth i (s2l "0123456789ABCDEF") 0 <> 13) by (intros i I; do 16 (destruct i as [|i]; [vm_compute; discriminate|]); lia).
  apply C. lia.
Qed.
Lemma line_again l k t : block_load l = ([], Ok k) -> unbroken l -> block_bytes k = Ok t -> unbroken t.
Proof.
  intros H U T. destruct (line_parts l k H) as (n & d & _ & _ & R & _ & _ & B). rewrite B in T. apply ok_inj in T. subst t.
  cbn [hex_text flat_map app]. apply unbroken_cons; [lia|]. apply unbroken_cons; [apply hex_not_cr; lia|]. apply unbroken_cons; [apply hex_not_cr; lia|].
  now apply unbroken_firstn, unbroken_skipn.
Qed.
Lemma lines_again ls bs ts : Forall2 (fun l k => block_load l = ([], Ok k)) ls bs -> Forall unbroken ls ->
  Forall2 (fun k t => block_bytes k = Ok t /\ block_load t = ([], Ok k)) bs ts -> Forall unbroken ts.
Proof.
  intros F. revert ts. induction F as [|l k ls bs H F IH]; intros ts U G; inversion G as [|? t ? ts' [G1 _] G2]; subst; [constructor|].
  inversion U as [|? ? U1 U2]; subst. constructor; [now apply (line_again l k)|now apply IH].
Qed.
Lemma read_each {A B} (f : A -> out B) l bs : Forall2 (fun b a => f a = ([], Ok b)) bs l -> omapM f l = ([], Ok bs).
Proof. induction 1 as [|b a bs l H F IH]; [reflexivity|]. cbn [omapM]. now rewrite H, IH. Qed.
Lemma usual_all ls bs : Forall2 (fun l k => block_load l = ([], Ok k)) ls bs -> Forall2 (fun k t => block_bytes k = Ok t /\ block_load t = ([], Ok k)) bs ls -> Forall usual ls.
Proof.
  induction 1 as [|l k ls bs H F IH]; intros G; [constructor|]. inversion G as [|? ? ? ? [G1 _] G2]; subst. constructor; [|now apply IH].
  destruct (C167_save l k H) as (n & d & _ & _ & R & _ & S). apply S in G1 as (P1 & P2 & P3). exists n. auto.
Qed.
(** A header with the data so written reads as the same blocks, without a warning. *)
Theorem C168_again : forall h bs, h_binary_flag h = Ok 1 -> fdata_get h = ([], Ok (DBlocks bs)) ->
  exists d, fdata_set h (DBlocks bs) = Ok d /\ forall h', h_binary_flag h' = Ok 1 -> h_data h' = d -> fdata_get h' = ([], Ok (DBlocks bs)).
Proof.
  intros h bs B H. destruct (C168_data h bs B H) as (ls & ts & J & U & F & S & G & _). exists (crlf_joined ts). split; [exact S|]. intros h' B' D.
  assert (UT : Forall unbroken ts) by exact (lines_again ls bs ts F U G).
  unfold fdata_get. rewrite B', D. unfold olift. rewrite obind_ret_l. change (1 =? 1) with true. cbv iota.
  destruct ts as [|t ts].
  - exfalso. inversion G; subst. unfold fdata_get in H. rewrite B in H. unfold olift in H. rewrite obind_ret_l in H. change (1 =? 1) with true in H. cbv iota in H.
    apply obind_silent in H as (l & E & H). apply oret_same in H. injection H as ->. apply omapM_silent in E. destruct (split_some (h_data h) []) as (x & r & SX). rewrite SX in E. inversion E.
  - rewrite cut_joined; [|discriminate|exact UT]. rewrite (read_each block_load (t :: ts) bs); [reflexivity|]. clear - G. revert G. generalize (t :: ts) as z. intros z G. induction G as [|k x b z' [_ G1] G IH]; constructor; auto.
Qed.
Print Assumptions C168_again.
(** The data are the same exactly if they are lines of the usual form. *)
Theorem C168_same : forall h bs ls, h_binary_flag h = Ok 1 -> fdata_get h = ([], Ok (DBlocks bs)) -> ls <> [] -> Forall unbroken ls -> h_data h = crlf_joined ls ->
  (fdata_set h (DBlocks bs) = Ok (h_data h) <-> Forall usual ls).
Proof.
  intros h bs ls B H NE U J. destruct (C168_data h bs B H) as (ls' & ts & J' & U' & F & S & G & K).
  assert (NE' : ls' <> []).
  { intros ->. inversion F; subst. unfold fdata_get in H. rewrite B in H. unfold olift in H. rewrite obind_ret_l in H. change (1 =? 1) with true in H. cbv iota in H.
    apply obind_silent in H as (l & E & H). apply oret_same in H. injection H as ->. apply omapM_silent in E. destruct (split_some (h_data h) []) as (x & r & SX). rewrite SX in E. inversion E. }
  assert (E : ls' = ls) by (rewrite <- (cut_joined ls NE U), <- (cut_joined ls' NE' U'); congruence). subst ls'.
  split; [|exact K]. intros Q. rewrite S, J in Q. apply ok_inj in Q.
  assert (NT : ts <> []) by (intros ->; inversion G; subst; inversion F; congruence).
  assert (E : ts = ls) by (rewrite <- (cut_joined ls NE U), <- (cut_joined ts NT (lines_again ls bs ts F U G)); congruence).
  subst ts. exact (usual_all ls bs F G).
Qed.
Print Assumptions C168_same.
(** Any data is read, or the error is that of a line. *)
Theorem C168_errors : forall h w x, fdata_get h = (w, Err x) -> h_binary_flag h = Err x \/ h_binary_flag h = Ok 1 /\ (x = ValueError \/ x = UnicodeDecodeError).
Proof.
  intros h w x H. unfold fdata_get in H. destruct (h_binary_flag h) as [f|e]; [|cbn in H; injection H as _ <-; auto].
  right. cbn [olift obind] in H. destruct (f =? 1) eqn:F; [|discriminate H]. apply Z.eqb_eq in F. subst f. split; [reflexivity|].
  assert (G : forall l w, omapM block_load l = (w, Err x) -> x = ValueError \/ x = UnicodeDecodeError).
  { induction l as [|a l IH]; intros w' Q; [discriminate Q|]. cbn [omapM] in Q. destruct (block_load a) as [w1 [b|e]] eqn:E.
    - cbn [obind] in Q. destruct (omapM block_load l) as [w2 [r|e]] eqn:E2; cbn in Q; [discriminate Q|]. injection Q as _ <-. now apply (IH w2).
    - cbn in Q. injection Q as _ <-. now apply (C167_errors a w1). }
  destruct (omapM block_load _) as [w1 [r|e]] eqn:E; cbn in H; [discriminate H|]. injection H as _ <-. now apply (G _ _ E).
Qed.
Print Assumptions C168_errors.
(** Two lines, the second with another first byte, a sign in its count and bytes after it. *)
Definition odd_data : fheader := (* an instance of the header of flash.py:337-447 *)
  FH FApp tifl [0; 0] [1] [136] [0; 0; 0; 0] (s2l "A") [115; 36] [0]
     (s2l ":0345680001ABFFA5" ++ [13; 10] ++ s2l "?+0000001FFzz") true.
Example C168_example : h_binary_flag odd_data = Ok 1 /\
  fdata_get odd_data = ([], Ok (DBlocks [intel_block 17768 0 [1; 171; 255]; intel_block 0 1 []])) /\
  fdata_set odd_data (DBlocks [intel_block 17768 0 [1; 171; 255]; intel_block 0 1 []]) = Ok (s2l ":0345680001ABFFA5" ++ [13; 10] ++ s2l ":00000001FF") /\
  usual (s2l ":0345680001ABFFA5") /\ usual (s2l ":00000001FF").
Proof.
  split; [reflexivity|]. split; [vm_compute; reflexivity|]. split; [vm_compute; reflexivity|].
  split; [exists 3|exists 0]; (split; [lia|]); repeat split; vm_compute; reflexivity.
Qed.
Theorem C168_same_refuted : exists h v b, fdata_get h = ([], Ok v) /\ fdata_set h v = Ok b /\ b <> h_data h.
Proof. exists odd_data. do 2 eexists. split; [vm_compute; reflexivity|]. split; [vm_compute; reflexivity|]. vm_compute. discriminate. Qed.
Print Assumptions C168_same_refuted.
(** The hypotheses of C168_same for the same header. *)
Example C168_same_example : let ls := [s2l ":0345680001ABFFA5"; s2l "?+0000001FFzz"] in
  h_data odd_data = crlf_joined ls /\ Forall unbroken ls /\ ~ Forall usual ls.
Proof.
  assert (U : forall l, ~ In 13 l -> unbroken l) by (intros l N a b ->; apply N, in_or_app; right; now left).
  split; [reflexivity|]. split.
  - repeat constructor; apply U; vm_compute; intros I; repeat (destruct I as [I|I]; [discriminate I|]); exact I.
  - intros F. inversion F as [|? ? _ F2]; subst. inversion F2 as [|? ? (n & _ & Q & _) _]; subst. vm_compute in Q. discriminate Q.
Qed.
