(** C167: reading any line as a flash block, and writing the block again. *)
From Verif Require Import PyBase M_Data M_Numeric M_Flags M_Models M_Class M_Var M_List M_Flash L_Base S_Data L_Data L_Flags S_Var L_Models L_Var S_Flash L_Flash P_Flash.

Lemma firstn_plus (a b : nat) (l : bytes) : firstn (a + b) l = firstn a l ++ firstn b (skipn a l).
Proof.
  revert l. induction a as [|a IH]; intros l; [reflexivity|]. destruct l as [|x l]; [now rewrite !firstn_nil|]. cbn [Nat.add firstn skipn app]. now rewrite IH.
Qed.
Lemma hex_val_range x v : hex_val x = Some v -> 0 <= v < 16.
Proof.
  unfold hex_val. destruct (digit_val x) as [d|] eqn:D; [|discriminate]. destruct (d <? 16) eqn:L; [|discriminate]. intros H. injection H as <-. split; [|lia]. unfold digit_val in D.
  repeat match type of D with (if ?b then _ else _) = _ => destruct b eqn:?; [injection D as <-; lia|] end. discriminate D.
Qed.
Lemma int16_range s n : int16 s = Ok n -> -16 < n < 256.
Proof.
  unfold int16. destruct s as [|a [|b [|c s]]]; try discriminate.
  - destruct (128 <=? a); [discriminate|]. destruct (hex_val a) eqn:E; [|discriminate]. apply hex_val_range in E. intros H. injection H as <-. lia.
  - destruct ((128 <=? a) || (128 <=? b)).
    + repeat match goal with |- context [if ?b then _ else _] => destruct b eqn:? end; intros H; try discriminate H; injection H as <-; lia.
    + destruct (hex_val a) eqn:E1, (hex_val b) eqn:E2; try apply hex_val_range in E1; try apply hex_val_range in E2;
      repeat match goal with |- context [if ?b then _ else _] => destruct b end; intros H; try discriminate H; injection H as <-; lia.
Qed.

Lemma obind_silent {A B} (m : out A) (f : A -> out B) b : obind m f = ([], Ok b) -> exists a, m = ([], Ok a) /\ f a = ([], Ok b).
Proof. intros H. apply obind_ok in H as (w1 & a & w2 & E1 & E2 & E3). symmetry in E3. apply app_eq_nil in E3 as [-> ->]. eauto. Qed.
Lemma oret_same {A} (a b : A) : oret a = ([], Ok b) -> a = b.
Proof. unfold oret. congruence. Qed.
Lemma olift_same {A} (a : result A) b : olift a = ([], Ok b) -> a = Ok b.
Proof. unfold olift. congruence. Qed.
Lemma warn_silent b x u : owarn_if b x = ([], Ok u) -> b = false.
Proof. destruct b; [discriminate|reflexivity]. Qed.

(** What a line read without a warning consists of: its first byte, whatever it is, two bytes
    that count, and 8 + 2 n more that are kept. *)
Lemma line_parts l k : block_load l = ([], Ok k) ->
  exists n d, k_data k = Some d /\ zlen d = 2 * n /\ 0 <= n < 256 /\ int16 (firstn 2 (skipn 1 l)) = Ok n /\
    length (firstn (Z.to_nat (8 + 2 * n)) (skipn 3 l)) = Z.to_nat (8 + 2 * n) /\
    block_bytes k = Ok (58 :: hex_text [n] ++ firstn (Z.to_nat (8 + 2 * n)) (skipn 3 l)).
Proof.
  intros H. unfold block_load, rd in H. apply obind_silent in H as (n & E1 & H). apply olift_same in E1. replace (skipn 2 (skipn 1 l)) with (skipn 3 l) in H by now rewrite skipn_skipn'.
  cbv zeta in H. remember (skipn 3 l) as y eqn:Y. clear Y. apply obind_silent in H as (u1 & E2 & H). clear E2 u1.
  pose proof (int16_range _ _ E1) as R.
  destruct (2 * n <? 0) eqn:NN.
  { apply obind_silent in H as (u2 & E3 & _). apply warn_silent in E3. apply negb_false_iff, Z.eqb_eq in E3. exfalso. clear - E3 NN. match type of E3 with zlen ?z = _ => pose proof (zlen_nonneg z) end. lia. }
  apply Z.ltb_ge in NN. apply obind_silent in H as (u2 & E3 & H). apply warn_silent in E3. apply negb_false_iff, Z.eqb_eq in E3.
  apply obind_silent in H as (c & E4 & H). apply obind_silent in H as (u3 & E5 & H). apply warn_silent in E5. apply negb_false_iff, leqb_spec in E5.
  apply oret_same in H. apply olift_same in E4. subst k. rewrite ?(skipn_skipn' _ 2 4), ?(skipn_skipn' _ _ (4 + 2)) in E3, E4, E5 |- *. change (4 + 2)%nat with 6%nat in *. rewrite (skipn_skipn' y _ 6) in E5.
  set (a := firstn 4 y) in *. set (t := firstn 2 (skipn 4 y)) in *. set (d := firstn (Z.to_nat (2 * n)) (skipn 6 y)) in *. set (e := firstn 2 (skipn (6 + Z.to_nat (2 * n)) y)) in *.
  exists n, d. split; [reflexivity|]. split; [exact E3|]. split; [lia|]. split; [exact E1|].
  assert (EQ : firstn (Z.to_nat (8 + 2 * n)) y = a ++ t ++ d ++ e).
  { replace (Z.to_nat (8 + 2 * n)) with (4 + (2 + (Z.to_nat (2 * n) + 2)))%nat by lia. rewrite !firstn_plus, !skipn_skipn'. reflexivity. }
  assert (LC : length c = 2%nat).
  { unfold block_checksum in E4. destruct (block_size _); [|discriminate E4]. cbn [rbind] in E4. destruct (block_data _); [|discriminate E4]. cbn [rbind] in E4.
    destruct (fromhex _); [|discriminate E4]. cbn [rbind] in E4. injection E4 as <-. reflexivity. }
  assert (LY : (8 + Z.to_nat (2 * n) <= length y)%nat).
  { rewrite <- E5 in LC. unfold e in LC. rewrite firstn_length, skipn_length in LC. lia. }
  split; [rewrite firstn_length; lia|].
  unfold block_bytes. rewrite E4. unfold block_size, block_data. cbn [k_data k_address k_type rbind]. rewrite E3.
  replace (2 * n / 2) with n by lia. rewrite hex_fmt_text by (unfold is_byte; lia). rewrite EQ, E5. cbn [app hex_text flat_map]. now rewrite <- ?app_assoc.
Qed.

(** Such a block is written with a colon, the count in two upper-case digits, and the rest of
    the line; so it is written as it was read exactly if the line was like this. *)
Theorem C167_save : forall l k, block_load l = ([], Ok k) ->
  exists n d, k_data k = Some d /\ zlen d = 2 * n /\ 0 <= n < 256 /\
    block_bytes k = Ok (58 :: hex_text [n] ++ firstn (Z.to_nat (8 + 2 * n)) (skipn 3 l)) /\
    (block_bytes k = Ok l <-> nth 0 l 0 = 58 /\ firstn 2 (skipn 1 l) = hex_text [n] /\ zlen l = 11 + 2 * n).
Proof.
  intros l k H. destruct (line_parts l k H) as (n & d & D & Z1 & R & I & LY & B).
  exists n, d. split; [exact D|]. split; [exact Z1|]. split; [exact R|]. split; [exact B|]. rewrite B.
  assert (LT : length (hex_text [n]) = 2%nat) by reflexivity.
  split.
  - intros E. apply ok_inj in E. rewrite <- E. split; [reflexivity|]. split; [reflexivity|].
    unfold zlen. cbn [length]. rewrite app_length, LT, LY. lia.
  - intros (E1 & E2 & E3). f_equal. rewrite <- E2. destruct l as [|x l]; [cbn in E1; discriminate E1|]. cbn [nth] in E1. subst x. f_equal.
    change (skipn 1 (58 :: l)) with l. change (skipn 3 (58 :: l)) with (skipn 2 l). rewrite (firstn_all2 (skipn 2 l)); [apply firstn_skipn|].
    rewrite skipn_length. unfold zlen in E3. cbn [length] in E3. lia.
Qed.
Print Assumptions C167_save.
(** Reading what was written gives the block again, without a warning. *)
Theorem C167_again : forall l k, block_load l = ([], Ok k) -> exists b, block_bytes k = Ok b /\ block_load b = ([], Ok k).
Proof.
  intros l k H. destruct (line_parts l k H) as (n & d & D & Z1 & R & I & LY & B).
  eexists. split; [exact B|]. rewrite <- H. unfold block_load, rd.
  change (firstn 2 (skipn 1 (58 :: hex_text [n] ++ firstn (Z.to_nat (8 + 2 * n)) (skipn 3 l)))) with (hex_text [n]).
  rewrite int16_text by (unfold is_byte; lia). rewrite I.
  change (skipn 2 (skipn 1 (58 :: hex_text [n] ++ firstn (Z.to_nat (8 + 2 * n)) (skipn 3 l)))) with (firstn (Z.to_nat (8 + 2 * n)) (skipn 3 l)).
  rewrite (skipn_skipn' l 2 1). change (1 + 2)%nat with 3%nat. set (y := skipn 3 l) in *. cbn [olift obind]. cbv zeta.
  replace (2 * n <? 0) with false by lia. rewrite !skipn_skipn'.
  assert (F : forall i j, (i + j <= Z.to_nat (8 + 2 * n))%nat -> firstn j (skipn i (firstn (Z.to_nat (8 + 2 * n)) y)) = firstn j (skipn i y)).
  { intros i j Q. rewrite skipn_firstn_comm, firstn_firstn. f_equal. lia. }
  pose proof (F 0%nat 4%nat ltac:(lia)) as F0. rewrite !skipn_O in F0. rewrite F0. rewrite !F by lia. reflexivity.
Qed.
Print Assumptions C167_again.
(** The only errors on any line are ValueError and its kind UnicodeDecodeError. *)
Lemma fromhex_errors : forall n l x, (length l <= n)%nat -> fromhex l = Err x -> x = ValueError.
Proof.
  induction n as [|n IH]; intros [|a l] x L H; try discriminate H; cbn [length] in L; [lia|]. cbn [fromhex] in H.
  destruct (ascii_space a); [apply (IH l); [lia|exact H]|]. destruct l as [|b l]; [congruence|]. cbn [length] in L.
  destruct (hex_val a), (hex_val b); try congruence. destruct (fromhex l) as [|y] eqn:E; [discriminate H|]. cbn [rbind] in H. injection H as <-. apply (IH l); [lia|exact E].
Qed.
Theorem C167_errors : forall l w x, block_load l = (w, Err x) -> x = ValueError \/ x = UnicodeDecodeError.
Proof.
  intros l w x H. unfold block_load, rd in H. destruct (int16 (firstn 2 (skipn 1 l))) as [n|y] eqn:I.
  - cbn [olift obind] in H. cbv zeta in H.
    assert (C : forall a t d e, block_checksum (Block a t (Some d)) = Err e -> e = ValueError).
    { intros a t d e Q. unfold block_checksum, block_size, block_data in Q. cbn [k_data rbind] in Q.
      match type of Q with context [fromhex ?z] => destruct (fromhex z) as [|y] eqn:F; [discriminate Q|] end. cbn [rbind] in Q. injection Q as <-. eapply fromhex_errors; [|exact F]. apply le_n. }
    left. unfold owarn_if, owarn, oret in H. destruct (2 * n <? 0).
    all: match type of H with context [block_checksum ?k] => destruct (block_checksum k) as [c|e] eqn:K end.
    all: cbn [olift obind] in H; repeat match type of H with context [if ?b then ([?z], Ok tt) else _] => destruct b; cbn [obind app] in H end; try discriminate H; try congruence; injection H as _ <-; eapply C; exact K.
  - cbn [olift obind] in H. injection H as _ <-. unfold int16 in I. revert I.
    destruct (firstn 2 (skipn 1 l)) as [|a [|b [|c s]]]; intros I;
    repeat match type of I with context [if ?b then _ else _] => destruct b | context [match ?z with Some _ => _ | None => _ end] => destruct z end; try discriminate I; injection I as <-; auto.
Qed.
Print Assumptions C167_errors.

(** A line with another first byte, a sign in its count and something after the checksum. *)
Example C167_example : exists k, block_load (s2l "?+345680001ABFEA6zz") = ([], Ok k) /\ block_bytes k = Ok (s2l ":0345680001ABFEA6") /\
  block_load (s2l ":0345680001ABFEA6") = ([], Ok k) /\
  snd (block_load []) = Err ValueError /\ snd (block_load [58; 200; 65]) = Err UnicodeDecodeError /\ snd (block_load (s2l ":0145680G")) = Err ValueError.
Proof. eexists. repeat split; vm_compute; reflexivity. Qed.
Theorem C167_same_refuted : exists l k b, block_load l = ([], Ok k) /\ block_bytes k = Ok b /\ b <> l.
Proof. exists (s2l "?+345680001ABFEA6zz"). do 2 eexists. split; [vm_compute; reflexivity|]. split; [vm_compute; reflexivity|]. vm_compute. discriminate. Qed.
Print Assumptions C167_same_refuted.
(** A negative count takes the rest of the line as data, and warns. *)
Theorem C167_negative : forall l n w k, int16 (firstn 2 (skipn 1 l)) = Ok n -> n < 0 -> block_load l = (w, Ok k) ->
  k_data k = Some (skipn 9 l) /\ In WDataLength w.
Proof.
  intros l n w k I N H. unfold block_load, rd in H. rewrite I in H. apply obind_ok in H as (w0 & n' & w9 & E0 & H & ->). unfold olift in E0. injection E0 as <- <-. cbv zeta in H. replace (2 * n <? 0) with true in H by lia.
  rewrite !skipn_skipn' in H. change (1 + (2 + 4) + 2)%nat with 9%nat in H.
  apply obind_ok in H as (w1 & u1 & w2 & _ & H & ->). apply obind_ok in H as (w3 & u2 & w4 & E & H & ->).
  match type of E with owarn_if (negb (zlen ?z =? _)) _ = _ => pose proof (zlen_nonneg z); replace (negb (zlen z =? 2 * n)) with true in E by lia end.
  unfold owarn_if, owarn in E. injection E as <- _.
  apply obind_ok in H as (w5 & c & w6 & _ & H & ->). apply obind_ok in H as (w7 & u3 & w8 & _ & H & ->). unfold oret in H. injection H as _ <-.
  split; [reflexivity|]. cbn [app]. apply in_or_app. right. now left.
Qed.
Print Assumptions C167_negative.
Example C167_negative_example : exists w k, block_load (s2l ":-345680001ABFEA6") = (w, Ok k) /\ int16 (s2l "-3") = Ok (-3) /\ k_data k = Some (s2l "01ABFEA6") /\ In WDataLength w.
Proof. do 2 eexists. split; [vm_compute; reflexivity|]. repeat split. now left. Qed.
