(** C166: opening arbitrary bytes as a flash header, and saving them again. *)
From Verif Require Import PyBase M_Data M_Numeric M_Flags M_Models M_Class M_Var M_List M_Flash L_Base S_Data L_Data L_Flags S_Var L_Models L_Var S_Flash L_Flash P_Flash.

(** A file opens exactly if it has 78 bytes, whatever they are. *)
Theorem C166_opens : forall c has file, wf_bytes file ->
  outcome (h_open c has file) = if zlen file <? 78 then Err OSError else Ok tt.
Proof.
  intros c has file W. unfold h_open. destruct (zlen file <? 78) eqn:L; [reflexivity|]. rewrite obind_oret.
  assert (LF : (78 <= length file)%nat) by (unfold zlen in L; lia).
  pose proof (le_int_nonneg (firstn 4 (skipn 74 file)) (wf_firstn _ _ (wf_skipn _ _ W))) as R.
  rewrite (next_length file 0) by (change (0 + 74)%nat with 74%nat; lia). change (0 + 74)%nat with 74%nat. change (0 + 78)%nat with 78%nat. set (s := le_int _) in *.
  match goal with |- context [78 + s + ?q] => assert (N : 78 <= 78 + s + q) by (assert (0 <= q) by (destruct (skipn (78 + Z.to_nat s) file); [lia|]; destruct (leqb _ _); lia); lia); set (n := 78 + s + q) in * end.
  unfold st_read, st_rest. cbn [st_buf st_pos skipn]. rewrite outcome_bind.
  assert (O : outcome (h_load c has (firstn (Z.to_nat n) file)) = Ok tt).
  { rewrite C63_loads_iff by now apply wf_firstn. assert (LB : zlen (firstn (Z.to_nat n) file) >= 78) by (unfold zlen; rewrite firstn_length; lia).
    replace (zlen _ <? 17) with false by lia. replace (zlen _ <? 50) with false by lia. reflexivity. }
  unfold outcome in O. destruct (snd (h_load c has (firstn (Z.to_nat n) file))); [|discriminate O].
  destruct (skipn (0 + _) file); reflexivity.
Qed.
Print Assumptions C166_opens.

Lemma cut_at n (l : bytes) : (n <= length l)%nat -> exists a b, l = a ++ b /\ length a = n.
Proof. intros L. exists (firstn n l), (skipn n l). split; [now rewrite firstn_skipn|rewrite firstn_length; lia]. Qed.
Lemma as_le32 b : length b = 4%nat -> wf_bytes b -> le32 (le_int b) = b.
Proof.
  intros L W. destruct b as [|x [|y [|z [|u [|v b]]]]]; try discriminate L.
  inversion W as [|? ? B1 W1]; inversion W1 as [|? ? B2 W2]; inversion W2 as [|? ? B3 W3]; inversion W3 as [|? ? B4 _]. clear W W1 W2 W3. subst. unfold is_byte in *.
  unfold le32. cbn [le_int]. f_equal; [lia|]. f_equal; [lia|]. f_equal; [lia|]. f_equal. lia.
Qed.
Lemma strip_eight x : length x = 31%nat -> (length (rstrip0 x) = 8%nat <-> nth 7 x 0 <> 0 /\ skipn 8 x = zeros 23).
Proof.
  intros L. split.
  - intros R. destruct (rstrip0_split x) as [n E]. pose proof (rstrip0_idem x) as I. set (r := rstrip0 x) in *.
    assert (N : n = 23%nat) by (apply (f_equal (@length Z)) in E; rewrite app_length, zeros_length in E; lia). subst n.
    rewrite E. split; [|rewrite skipn_app, (skipn_ge r) by lia; now rewrite R].
    rewrite app_nth1 by lia. clearbody r. assert (NE : r <> []) by (intros ->; discriminate R). pose proof (rstrip0_last r NE I) as La.
    clear - R La. do 8 (destruct r as [|? r]; [discriminate R|]). destruct r; [exact La|discriminate R].
  - intros [H1 H2]. rewrite <- (firstn_skipn 8 x), H2, rstrip0_app_zeros, rstrip0_id; [rewrite firstn_length; lia|].
    do 8 (destruct x as [|? x]; [discriminate L|]). exact H1.
Qed.

(** Any bytes with enough data and no tail, or one of two bytes, are an image. *)
Lemma as_image l : wf_bytes l -> (78 <= length l)%nat ->
  (length l = 78 + Z.to_nat (le_int (firstn 4 (skipn 74 l))) \/ length l = 80 + Z.to_nat (le_int (firstn 4 (skipn 74 l))))%nat ->
  exists i, image_ok i /\ l = image_bytes i /\ i_name_length i = nth 16 l 0 /\
    (length (i_name i) = 8%nat <-> nth 24 l 0 <> 0 /\ firstn 23 (skipn 25 l) = zeros 23) /\
    (length (i_devices i) = 2%nat <-> firstn 23 (skipn 50 l) = zeros 23).
Proof.
  intros W L T.
  destruct (cut_at 8 l) as (m & l1 & E1 & L1); [lia|]. rewrite E1, app_length in L.
  destruct (cut_at 2 l1) as (r & l2 & E2 & L2); [lia|]. rewrite E2, app_length in L.
  destruct l2 as [|f [|o l3]]; [cbn in L; lia..|]. cbn [length] in L.
  destruct (cut_at 4 l3) as (d & l4 & E4 & L4); [lia|]. rewrite E4, app_length in L.
  destruct l4 as [|nl l5]; [cbn in L; lia|]. cbn [length] in L.
  destruct (cut_at 31 l5) as (n & l6 & E6 & L6); [lia|]. rewrite E6, app_length in L.
  destruct l6 as [|d0 [|d1 l7]]; [cbn in L; lia..|]. cbn [length] in L.
  destruct (cut_at 23 l7) as (dr & l8 & E8 & L8); [lia|]. rewrite E8, app_length in L.
  destruct l8 as [|p l9]; [cbn in L; lia|]. cbn [length] in L.
  destruct (cut_at 4 l9) as (sz & l10 & E10 & L10); [lia|]. clear L.
  set (P := m ++ r ++ [f; o] ++ d). assert (LP : length P = 16%nat) by (unfold P; rewrite !app_length; cbn [length]; lia).
  assert (E : l = P ++ nl :: n ++ d0 :: d1 :: dr ++ p :: sz ++ l10) by (unfold P; rewrite E1, E2, E4, E6, E8, E10, <- !app_assoc; reflexivity).
  clear E1 E2 E4 E6 E8 E10. subst l.
  assert (F : firstn 4 (skipn 74 (P ++ nl :: n ++ d0 :: d1 :: dr ++ p :: sz ++ l10)) = sz).
  { replace (P ++ nl :: n ++ d0 :: d1 :: dr ++ p :: sz ++ l10) with ((P ++ nl :: n ++ d0 :: d1 :: dr ++ [p]) ++ sz ++ l10) by (repeat (rewrite <- !app_assoc; cbn [app]); reflexivity).
    rewrite skipn_app_exact by (repeat (rewrite ?app_length; cbn [length]); clear - LP L6 L8; lia). now apply firstn_app_exact. }
  rewrite F in T.
  assert (WS : wf_bytes sz) by (rewrite <- F; now apply wf_firstn, wf_skipn).
  assert (WD : is_byte d0 /\ is_byte d1 /\ wf_bytes dr).
  { unfold wf_bytes in W |- *. rewrite Forall_app, Forall_cons_iff, Forall_app, !Forall_cons_iff, Forall_app in W. tauto. }
  pose proof (le_int_nonneg sz WS) as S0. pose proof (le_int_bound sz WS) as S1. rewrite L10 in S1. change (256 ^ Z.of_nat 4) with (2 ^ 32) in S1.
  assert (LT : (length l10 = Z.to_nat (le_int sz) \/ length l10 = Z.to_nat (le_int sz) + 2)%nat).
  { clear - T LP L6 L8 L10. rewrite !app_length in T. cbn [length] in T. rewrite !app_length in T. cbn [length] in T. rewrite !app_length in T. cbn [length] in T. rewrite !app_length in T. lia. }
  destruct (cut_at (Z.to_nat (le_int sz)) l10) as (da & t & E11 & L11); [lia|]. subst l10.
  assert (ZD : zlen da = le_int sz) by (unfold zlen; lia).
  exists (Image m r f o d nl (rstrip0 n) (d0 :: d1 :: rstrip0 dr) p da t).
  split; [|split; [|split; [|split]]].
  - unfold image_ok. cbn [i_magic i_revision i_date i_name i_devices i_data i_tail skipn]. pose proof (rstrip0_length n). pose proof (rstrip0_length dr).
    split; [exact L1|]. split; [exact L2|]. split; [exact L4|]. split; [lia|]. split; [apply rstrip0_trimmed|]. split; [cbn [length]; lia|]. split; [apply rstrip0_trimmed|].
    split; [destruct WD as (B0 & B1 & WD); constructor; [exact B0|]; constructor; [exact B1|]; now apply wf_rstrip0|]. split; [lia|].
    rewrite app_length in LT. lia.
  - unfold image_bytes, image_head. cbn [i_magic i_revision i_flag i_object i_date i_name_length i_name i_devices i_product i_data i_tail].
    rewrite (pad_rstrip 31 n L6). rewrite ZD, (as_le32 sz L10 WS).
    assert (PD : nul_padded 25 (d0 :: d1 :: rstrip0 dr) = d0 :: d1 :: dr) by (transitivity (d0 :: d1 :: nul_padded 23 (rstrip0 dr)); [reflexivity|]; now rewrite pad_rstrip).
    rewrite PD. unfold P. rewrite <- !app_assoc. reflexivity.
  - cbn [i_name_length]. rewrite app_nth2 by lia. rewrite LP. reflexivity.
  - cbn [i_name]. rewrite strip_eight by exact L6.
    rewrite app_nth2 by lia. rewrite LP. change (24 - 16)%nat with 8%nat. cbn [nth]. rewrite app_nth1 by lia.
    rewrite skipn_app, (skipn_ge P) by lia. rewrite LP. change (25 - 16)%nat with 9%nat. cbn [app].
    change (skipn 9 (nl :: n ++ d0 :: d1 :: dr ++ p :: sz ++ da ++ t)) with (skipn 8 (n ++ d0 :: d1 :: dr ++ p :: sz ++ da ++ t)). rewrite skipn_app. rewrite L6. change (8 - 31)%nat with 0%nat. rewrite skipn_O. rewrite firstn_app_exact by (rewrite skipn_length; lia). reflexivity.
  - cbn [i_devices length]. rewrite skipn_app, (skipn_ge P) by lia. rewrite LP. change (50 - 16)%nat with 34%nat. cbn [app].
    change (skipn 34 (nl :: n ++ d0 :: d1 :: dr ++ p :: sz ++ da ++ t)) with (skipn 33 (n ++ d0 :: d1 :: dr ++ p :: sz ++ da ++ t)).
    rewrite skipn_app, (skipn_ge n) by lia. rewrite L6. change (33 - 31)%nat with 2%nat. cbn [app skipn]. rewrite firstn_app_exact by exact L8.
    split; intros H.
    + rewrite <- (pad_rstrip 23 dr L8). destruct (rstrip0 dr); [reflexivity|discriminate H].
    + rewrite H, rstrip0_zeros. reflexivity.
Qed.

(** What the loader says about data that end early, and about half a checksum. *)
Lemma load_short c has l w h : h_load c has l = (w, Ok h) -> zlen (skipn 78 l) < le_int (firstn 4 (skipn 74 l)) -> In WFlashSize w.
Proof.
  intros H S. unfold h_load, rd in H. rewrite !skipn_skipn' in H.
  change (8 + (2 + (1 + (1 + 4))) + 1 + 31 + 1 + (1 + (23 + 1)))%nat with 74%nat in H. change (74 + 4)%nat with 78%nat in H.
  do 6 (apply obind_ok in H as (? & ? & ? & _ & H & ->)). apply obind_ok in H as (w1 & ? & w2 & E & _ & ->).
  apply in_or_app; right. do 5 (apply in_or_app; right). apply in_or_app; left.
  replace (zlen (firstn _ (skipn 78 l)) =? _) with false in E; [injection E as <- _; now left|].
  symmetry. apply Z.eqb_neq. unfold zlen in *. rewrite firstn_length. lia.
Qed.
Lemma load_half c has l w h : h_load c has l = (w, Ok h) -> length (firstn 2 (skipn (78 + Z.to_nat (le_int (firstn 4 (skipn 74 l)))) l)) = 1%nat -> In WChecksum w.
Proof.
  intros H S. unfold h_load, rd in H. rewrite !skipn_skipn' in H.
  change (8 + (2 + (1 + (1 + 4))) + 1 + 31 + 1 + (1 + (23 + 1)))%nat with 74%nat in H. change (74 + 4)%nat with 78%nat in H.
  do 7 (apply obind_ok in H as (? & ? & ? & _ & H & ->)). do 7 (apply in_or_app; right).
  destruct (firstn 2 (skipn (78 + _) l)) as [|k [|k' q]]; try discriminate S.
  rewrite checksum_data in H. cbn [olift] in H. apply obind_ok in H as (? & ? & ? & E & H & ->). injection E as <- <-.
  apply obind_ok in H as (? & ? & ? & E & _ & ->).
  match type of E with context [leqb ?a ?b] => destruct (leqb a b) eqn:K; [apply leqb_spec in K; discriminate K|] end. injection E as <- _. now left.
Qed.

(** If none of the warnings about the structure appear, the file is an image and nothing else. *)
Definition about_structure (x : warning) : bool := match x with WFlashSize | WChecksum | WDataLength | WMultiple => true | _ => false end.
Theorem C166_silent : forall c has file w h, wf_bytes file -> h_open c has file = (w, Ok h) -> (forall x, In x w -> about_structure x = false) ->
  exists i, image_ok i /\ file = image_bytes i /\ h = image_header c has i /\ (i_tail i = [] \/ i_tail i = data_sum (i_data i)) /\ i_name_length i = nth 16 file 0 /\
    (length (i_name i) = 8%nat <-> nth 24 file 0 <> 0 /\ firstn 23 (skipn 25 file) = zeros 23) /\
    (length (i_devices i) = 2%nat <-> firstn 23 (skipn 50 file) = zeros 23).
Proof.
  intros c has file w h W H N.
  assert (L : (78 <= length file)%nat).
  { pose proof (C166_opens c has file W) as O. rewrite H in O. unfold outcome in O. cbn [snd] in O. destruct (zlen file <? 78) eqn:Q; [discriminate O|]. unfold zlen in Q. lia. }
  unfold h_open in H. replace (zlen file <? 78) with false in H by (unfold zlen; lia). rewrite obind_oret in H.
  pose proof (le_int_nonneg (firstn 4 (skipn 74 file)) (wf_firstn _ _ (wf_skipn _ _ W))) as R.
  rewrite (next_length file 0) in H by (change (0 + 74)%nat with 74%nat; lia). change (0 + 74)%nat with 74%nat in H. change (0 + 78)%nat with 78%nat in H.
  set (s := le_int (firstn 4 (skipn 74 file))) in *. set (rest := skipn (78 + Z.to_nat s) file) in *.
  set (q := match rest with [] => 0 | _ => if leqb (firstn 8 rest) tifl then 0 else 2 end) in H.
  assert (Q : 0 <= q <= 2) by (unfold q; destruct rest; [lia|]; destruct (leqb _ _); lia).
  unfold st_read, st_rest in H. cbn [st_buf st_pos] in H. rewrite skipn_O in H. change (0 + ?x)%nat with x in H.
  set (b := firstn (Z.to_nat (78 + s + q)) file) in *.
  apply obind_ok in H as (w1 & h' & w2 & H1 & H & ->). apply obind_ok in H as (w3 & u & w4 & H2 & H & ->). injection H as <- <-.
  assert (NB : skipn (length b) file = []).
  { destruct (skipn (length b) file) as [|z y] eqn:K; [reflexivity|]. exfalso. injection H2 as <- _.
    specialize (N (if starts_with (s2l "**TIFL**") (z :: y) then WMultiple else WDataLength)).
    rewrite !in_app_iff in N. cbn [In] in N. specialize (N ltac:(tauto)). destruct (starts_with _ _); discriminate N. }
  assert (EB : b = file).
  { unfold b in NB |- *. apply firstn_all2. apply (f_equal (@length Z)) in NB. rewrite skipn_length, firstn_length in NB. cbn [length] in NB. lia. }
  rewrite EB in H1. clear H2 NB.
  assert (LF : (length file <= Z.to_nat (78 + s + q))%nat) by (rewrite <- EB; unfold b; rewrite firstn_length; lia).
  assert (LS : (78 + Z.to_nat s <= length file)%nat).
  { destruct (le_lt_dec (78 + Z.to_nat s) (length file)) as [|LT]; [assumption|]. exfalso.
    assert (I : In WFlashSize w1) by (apply (load_short c has file w1 h' H1); fold s; unfold zlen; rewrite skipn_length; lia).
    specialize (N WFlashSize ltac:(apply in_or_app; now left)). discriminate N. }
  assert (LR : length rest = (length file - (78 + Z.to_nat s))%nat) by (unfold rest; apply skipn_length).
  assert (L1 : length rest <> 1%nat).
  { intros E. assert (I : In WChecksum w1) by (apply (load_half c has file w1 h' H1); fold s; fold rest; rewrite firstn_length; lia).
    specialize (N WChecksum ltac:(apply in_or_app; now left)). discriminate N. }
  destruct (as_image file W L) as (i & OK & EI & P1 & P2 & P3); [fold s; lia|].
  exists i. split; [exact OK|]. split; [exact EI|].
  rewrite EI, h_load_image in H1 by exact OK. injection H1 as HW HH. split; [now symmetry|]. split; [|split; [exact P1|split; [exact P2|exact P3]]].
  destruct (leqb (i_tail i) [] || leqb (i_tail i) (data_sum (i_data i))) eqn:T.
  - apply orb_true_iff in T as [T|T]; apply leqb_spec in T; auto.
  - exfalso. assert (I : In WChecksum w1) by (rewrite <- HW; unfold image_warnings; rewrite T, !in_app_iff; cbn [In]; tauto).
    specialize (N WChecksum ltac:(apply in_or_app; now left)). discriminate N.
Qed.
Print Assumptions C166_silent.
(** Such a file is saved as it is exactly if its name has eight bytes, no NUL at the end of
    these and NULs after them, and there is only one device. *)
Theorem C166_save : forall c file w h, wf_bytes file -> h_open c true file = (w, Ok h) -> (forall x, In x w -> about_structure x = false) ->
  (h_bytes h = Ok file <->
   nth 16 file 0 = 8 /\ nth 24 file 0 <> 0 /\ firstn 23 (skipn 25 file) = zeros 23 /\ firstn 23 (skipn 50 file) = zeros 23).
Proof.
  intros c file w h W H N. destruct (C166_silent c true file w h W H N) as (i & OK & E & HH & T & P1 & P2 & P3).
  rewrite <- P1, <- P3, HH. pose proof (round_trip_iff c i OK) as RT. rewrite <- E in RT. rewrite RT. tauto.
Qed.
Print Assumptions C166_save.

(** A file that is saved as it is, and one, opened without any warning, that is not: its name
    has seven bytes and it has two devices. *)
Definition seven : image := lic (data_sum (s2l "text")).
Ltac by_bytes := apply Forall_forall; let I := fresh in intros ? I; vm_compute in I; unfold is_byte; repeat (destruct I as [<-|I]; [lia|]); destruct I.
Example C166_example : wf_bytes (image_bytes app8) /\ (exists h, h_open FHeader true (image_bytes app8) = ([], Ok h) /\ h_bytes h = Ok (image_bytes app8)) /\
  outcome (h_open FHeader true (firstn 77 (image_bytes app8))) = Err OSError /\ outcome (h_open FApp false (zeros 78)) = Ok tt.
Proof. split; [by_bytes|]. split; [eexists; split; [vm_compute; reflexivity|vm_compute; reflexivity]|]. split; vm_compute; reflexivity. Qed.
Theorem C166_same_refuted : exists file h b, wf_bytes file /\ h_open FHeader true file = ([], Ok h) /\ h_bytes h = Ok b /\ b <> file.
Proof.
  exists (image_bytes seven). eexists; eexists. split; [by_bytes|]. split; [vm_compute; reflexivity|]. split; [vm_compute; reflexivity|]. vm_compute. discriminate.
Qed.
Print Assumptions C166_same_refuted.
