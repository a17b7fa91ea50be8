(** C149: numbers in the dictionaries of settings. *)
From Verif Require Import PyBase M_Data M_Numeric M_Class M_Var M_Real M_Complex M_Gdb M_GdbDict M_Float M_Json M_SetDict L_Base S_Data L_Data S_Real L_Real L_Frac S_Float L_Float L_Json.
From Verif Require Import P_Real S_Gdb L_Gdb P_Gdb S_GdbDict L_GdbDict P_GdbDict P_Float P_Json.

(** * C149: numbers in the dictionaries of settings *)
(** A decimal number as calculators store it: zero, or with a first digit that is not
    zero. *)
Definition stored_number (b : bytes) : Prop := b = [0; 128; 0; 0; 0; 0; 0; 0; 0] \/
  exists neg x M, payload 0 neg x M b /\ is_byte x /\ 10 ^ 13 <= M < 10 ^ 14.
(** It is whole and below ten to the fourteenth. *)
Definition whole_number (b : bytes) : Prop := b = [0; 128; 0; 0; 0; 0; 0; 0; 0] \/
  exists neg x M, payload 0 neg x M b /\ 0 <= x <= 141 /\ 10 ^ 13 <= M < 10 ^ 14 /\ (10 ^ (141 - x) | M).
Definition zero_bytes : bytes := [0; 128; 0; 0; 0; 0; 0; 0; 0].

Lemma sci_unique n k M y M' y' : 10 ^ 13 <= M < 10 ^ 14 -> 10 ^ 13 <= M' < 10 ^ 14 -> sci_eq n k M y -> sci_eq n k M' y' -> M = M' /\ y = y'.
Proof.
  intros HM HM' S S'. set (z := Z.min k (Z.min y y')). apply (scale_eq _ _ _ _ z) in S; [|lia|lia]. apply (scale_eq _ _ _ _ z) in S'; [|lia|lia]. rewrite S in S'. clear S n. assert (Z1 : z <= y) by lia. assert (Z2 : z <= y') by lia. clearbody z.
  assert (G : forall M y M' y', 10 ^ 13 <= M < 10 ^ 14 -> 10 ^ 13 <= M' < 10 ^ 14 -> z <= y -> y < y' -> M * 10 ^ (y - z) = M' * 10 ^ (y' - z) -> False).
  { clear. intros M y M' y' HM HM' Z1 L E. replace (y' - z) with ((y' - y - 1) + 1 + (y - z)) in E by lia. rewrite !Z.pow_add_r in E by lia.
    assert (0 < 10 ^ (y - z)) by (apply Z.pow_pos_nonneg; lia). assert (0 < 10 ^ (y' - y - 1)) by (apply Z.pow_pos_nonneg; lia). change (10 ^ 1) with 10 in E.
    assert (E2 : M = M' * (10 ^ (y' - y - 1) * 10)) by nia. nia. }
  destruct (Z.lt_trichotomy y y') as [L|[L|L]].
  - exfalso. exact (G M y M' y' HM HM' Z1 L S').
  - subst y'. split; [|reflexivity]. assert (0 < 10 ^ (y - z)) by (apply Z.pow_pos_nonneg; lia). nia.
  - exfalso. exact (G M' y' M y HM' HM Z2 L (eq_sym S')).
Qed.
Lemma payload_same neg x M b b' : 0 <= M < 10 ^ 14 -> payload 0 neg x M b -> payload 0 neg x M b' -> b = b'.
Proof. intros HM P Q. apply payload_stored in P, Q; try lia. unfold stored in *. cbn [b_data] in *. congruence. Qed.
Lemma zero_form b : b = zero_bytes -> json_number (Buf true b) = Ok (JNum 0 (-1)).
Proof. intros ->. vm_compute. reflexivity. Qed.

(** Numbers shown alike are the same. *)
Theorem C149_number : forall b b' j, stored_number b -> stored_number b' -> json_number (Buf true b) = Ok j -> json_number (Buf true b') = Ok j -> b = b'.
Proof.
  assert (NZ : forall neg x M b, payload 0 neg x M b -> is_byte x -> 10 ^ 13 <= M < 10 ^ 14 -> json_number (Buf true b) = Ok (JNum 0 (-1)) -> False).
  { intros neg x M b P X HM J. destruct (C141_number 0 neg x M b 0 (-1) ltac:(lia) P X HM J) as (_ & N & _). now apply N. }
  intros b b' j [S|(neg & x & M & P & X & HM)] [S'|(neg' & x' & M' & P' & X' & HM')] J J'.
  - congruence.
  - exfalso. rewrite (zero_form b S) in J. injection J as <-. eauto.
  - exfalso. rewrite (zero_form b' S') in J'. injection J' as <-. eauto.
  - destruct j as [| |n k|s| |].
    3: { destruct (C141_number 0 neg x M b n k ltac:(lia) P X HM J) as (_ & _ & N & E & _). destruct (C141_number 0 neg' x' M' b' n k ltac:(lia) P' X' HM' J') as (_ & _ & N' & E' & _).
      destruct (sci_unique _ _ _ _ _ _ HM HM' E E') as [EM XX]. assert (EX : x' = x) by lia. assert (EN : neg' = neg) by congruence. rewrite EX, EN, <- EM in P'. apply (payload_same neg x M); [lia|exact P|exact P']. }
    3: { destruct (C141_text 0 neg x M b s ltac:(lia) P X HM J) as (_ & d & R & Q). destruct (C141_text 0 neg' x' M' b' s ltac:(lia) P' X' HM' J') as (_ & d' & R' & Q').
      rewrite R in R'. assert (d' = d) by (unfold oret in R'; congruence). subst d'. transitivity d; [apply (payload_same neg x M); [lia|exact P|exact Q]|symmetry; apply (payload_same neg' x' M'); [lia|exact P'|exact Q']]. }
    all: exfalso; destruct (json_form 0 neg x M b ltac:(lia) P X HM) as (c & k & i & _ & _ & _ & _ & F); rewrite J in F; destruct (zlen (float_repr neg c k) <=? 6); discriminate F.
Qed.
Print Assumptions C149_number.
Theorem C149_whole : forall b b' j, whole_number b -> whole_number b' -> json_whole (Buf true b) = Ok j -> json_whole (Buf true b') = Ok j -> b = b'.
Proof.
  assert (BACK : forall b j, whole_number b -> json_whole (Buf true b) = Ok j -> json_real j = oret b).
  { intros b j [->|(neg & x & M & P & X & HM & D)] J; [vm_compute in J; injection J as <-; vm_compute; reflexivity|].
    destruct (C141_whole 0 neg x M b ltac:(lia) P X HM D) as (n & d & E & R & Q). rewrite J in E. injection E as ->. rewrite R. f_equal. apply (payload_same neg x M); [lia|exact Q|exact P]. }
  intros b b' j W W' J J'. pose proof (BACK b j W J) as R. pose proof (BACK b' j W' J') as R'. rewrite R in R'. unfold oret in R'. congruence.
Qed.
Print Assumptions C149_whole.

(** The names and places of the settings. *)
Definition window_settings : list str := map s2l
  ["Xmin"; "Xmax"; "Xscl"; "Ymin"; "Ymax"; "Yscl"; "Thetamin"; "Thetamax"; "Thetastep"; "Tmin"; "Tmax"; "Tstep";
   "PlotStart"; "nMax"; "unMin0"; "vnMin0"; "nMin"; "unMin1"; "vnMin1"; "wnMin0"; "PlotStep"; "Xres"; "wnMin1"]%string.
Definition settings_of (c : cls) : list str :=
  match c with KWindow | KRecallWindow => window_settings | KTable => [s2l "TblMin"; s2l "DeltaTbl"] | _ => [] end.
Definition first_setting (c : cls) : nat := match c with KWindow => 3 | _ => 2 end.
Definition setting_at (c : cls) (k : nat) (d : bytes) : bytes := firstn 9 (skipn (first_setting c + 9 * k) d).
Definition must_be_whole (n : str) : bool := existsb (leqb n) (map s2l ["PlotStart"; "nMax"; "nMin"; "PlotStep"; "Xres"; "TblMin"; "DeltaTbl"]%string).
Definition setting_ok (n : str) (b : bytes) : Prop := if must_be_whole n then whole_number b else stored_number b.

Lemma shown n b : setting_ok n b -> exists j, settings_value n b = Ok j.
Proof.
  unfold setting_ok, settings_value. change (existsb (leqb n) settings_whole) with (must_be_whole n). destruct (must_be_whole n).
  - intros [->|(neg & x & M & P & X & HM & D)]; [eexists; vm_compute; reflexivity|]. destruct (C141_whole 0 neg x M b ltac:(lia) P X HM D) as (k & d & E & _). eauto.
  - intros [->|(neg & x & M & P & X & HM)]; [eexists; vm_compute; reflexivity|]. destruct (json_form 0 neg x M b ltac:(lia) P X HM) as (c & k & i & _ & _ & _ & _ & F). rewrite F. cbv zeta. destruct (zlen _ <=? 6); eauto.
Qed.
Lemma consecutive_values e : forall names i, 0 <= i -> i + 9 * zlen names <= zlen (calc_data e) ->
  (forall k n, nth_error names k = Some n -> exists j, settings_value n (firstn 9 (skipn (Z.to_nat i + 9 * k) (calc_data e))) = Ok j) ->
  exists D, rmapM (fun '(n, v) => try j := settings_value n (get_field e v) in Ok (n, j)) (consecutive i names) = Ok D /\ map fst D = names /\
    forall k n, nth_error names k = Some n -> exists j, nth_error D k = Some (n, j) /\ settings_value n (firstn 9 (skipn (Z.to_nat i + 9 * k) (calc_data e))) = Ok j.
Proof.
  induction names as [|n names IH]; intros i I L H.
  - exists []. split; [reflexivity|]. split; [reflexivity|]. intros [|k] n; discriminate.
  - rewrite zlen_cons in L. pose proof (zlen_nonneg names). destruct (IH (i + 9)) as (D & E & M & V); [lia|lia| |].
    { intros k m K. destruct (H (S k) m K) as (j & J). exists j. etransitivity; [|exact J]. do 3 f_equal. lia. }
    destruct (H 0%nat n eq_refl) as (j & J). exists ((n, j) :: D). cbn [consecutive rmapM at9].
    assert (G : get_field e (View (Some i) (Some (i + 9))) = firstn 9 (skipn (Z.to_nat i + 9 * 0) (calc_data e))).
    { unfold get_field, view_get. cbn [v_start v_stop]. change (b_data (e_data e)) with (calc_data e). rewrite py_slice_nn by lia. replace (i + 9 - i) with 9 by lia. f_equal. f_equal. lia. }
    rewrite G, J. cbn [rbind]. rewrite E. cbn [rbind]. split; [reflexivity|]. split; [cbn; now rewrite M|].
    intros [|k] m K; [injection K as <-; exists j; split; [reflexivity|exact J]|]. destruct (V k m K) as (j' & N' & J'). exists j'. split; [exact N'|]. etransitivity; [|exact J']. do 3 f_equal. lia.
Qed.

(** The dictionary has each setting under its name, in order. *)
Theorem C149_dict : forall e, In (e_cls e) [KWindow; KRecallWindow; KTable] -> calc_length (e_cls e) = Some (zlen (calc_data e)) ->
  (forall k n, nth_error (settings_of (e_cls e)) k = Some n -> setting_ok n (setting_at (e_cls e) k (calc_data e))) ->
  exists D, settings_values e = Ok D /\ map fst D = settings_of (e_cls e) /\
    forall k n, nth_error (settings_of (e_cls e)) k = Some n -> exists j, nth_error D k = Some (n, j) /\
      (if must_be_whole n then json_whole else json_number) (Buf true (setting_at (e_cls e) k (calc_data e))) = Ok j.
Proof.
  intros e C L H. unfold settings_values.
  assert (F : fields (e_cls e) = consecutive (Z.of_nat (first_setting (e_cls e))) (settings_of (e_cls e)) /\ Z.of_nat (first_setting (e_cls e)) + 9 * zlen (settings_of (e_cls e)) <= zlen (calc_data e)).
  { destruct C as [C|[C|[C|[]]]]; rewrite <- C in *; injection L as L; (split; [reflexivity|rewrite <- L; vm_compute; discriminate]). }
  destruct F as [F B]. rewrite F. destruct (consecutive_values e (settings_of (e_cls e)) (Z.of_nat (first_setting (e_cls e)))) as (D & E & M & V); [lia|exact B| |].
  { intros k n K. rewrite Nat2Z.id. apply shown. exact (H k n K). }
  exists D. split; [exact E|]. split; [exact M|]. intros k n K. destruct (V k n K) as (j & N & J). exists j. split; [exact N|]. rewrite Nat2Z.id in J. unfold settings_value in J. change (existsb (leqb n) settings_whole) with (must_be_whole n) in J.
  unfold setting_at. destruct (must_be_whole n); exact J.
Qed.
Print Assumptions C149_dict.
(** The dictionary determines all settings. *)
Theorem C149_determined : forall e e' D, In (e_cls e) [KWindow; KRecallWindow; KTable] -> e_cls e' = e_cls e ->
  calc_length (e_cls e) = Some (zlen (calc_data e)) -> calc_length (e_cls e) = Some (zlen (calc_data e')) ->
  (forall k n, nth_error (settings_of (e_cls e)) k = Some n -> setting_ok n (setting_at (e_cls e) k (calc_data e)) /\ setting_ok n (setting_at (e_cls e) k (calc_data e'))) ->
  settings_values e = Ok D -> settings_values e' = Ok D ->
  skipn (first_setting (e_cls e)) (calc_data e) = skipn (first_setting (e_cls e)) (calc_data e').
Proof.
  intros e e' D C C' L L' H E E'.
  destruct (C149_dict e C L) as (D1 & E1 & _ & V); [intros k n K; now apply H|]. rewrite E in E1. injection E1 as <-.
  destruct (C149_dict e') as (D1 & E1 & _ & V'); rewrite ?C'; [exact C|exact L'|intros k n K; now apply H|]. rewrite E' in E1. injection E1 as <-. rewrite C' in V'.
  assert (SM : forall k n, nth_error (settings_of (e_cls e)) k = Some n -> setting_at (e_cls e) k (calc_data e) = setting_at (e_cls e) k (calc_data e')).
  { intros k n K. destruct (V k n K) as (j & N & J). destruct (V' k n K) as (j' & N' & J'). destruct (H k n K) as [O O']. assert (j' = j) by congruence. subst j'. unfold setting_ok in *.
    destruct (must_be_whole n); [exact (C149_whole _ _ j O O' J J')|exact (C149_number _ _ j O O' J J')]. }
  assert (G : forall (names : list str) (d d' : bytes) i, length d = (i + 9 * length names)%nat -> length d' = (i + 9 * length names)%nat ->
    (forall k n, nth_error names k = Some n -> firstn 9 (skipn (i + 9 * k) d) = firstn 9 (skipn (i + 9 * k) d')) -> skipn i d = skipn i d').
  { clear. induction names as [|n names IH]; intros d d' i L L' H.
    - cbn [length] in *. rewrite (skipn_ge d i) by lia. rewrite (skipn_ge d' i) by lia. reflexivity.
    - cbn [length] in *. pose proof (H 0%nat n eq_refl) as H0. rewrite Nat.mul_0_r, Nat.add_0_r in H0.
      assert (R : skipn (i + 9) d = skipn (i + 9) d').
      { apply (IH d d' (i + 9)%nat); [lia|lia|]. intros k m K. specialize (H (S k) m K). replace (i + 9 + 9 * k)%nat with (i + 9 * S k)%nat by lia. exact H. }
      rewrite <- (firstn_skipn 9 (skipn i d)), <- (firstn_skipn 9 (skipn i d')), H0. f_equal.
      assert (SS : forall l : bytes, skipn 9 (skipn i l) = skipn (i + 9) l).
      { clear. intros l. revert l. induction i as [|i IH]; intros l; [reflexivity|]. destruct l as [|x l]; [reflexivity|]. cbn [Nat.add]. rewrite !skipn_cons. apply IH. }
      rewrite !SS. exact R. }
  apply (G (settings_of (e_cls e))); [| |exact SM]; unfold zlen in *; clear - C L L'; destruct C as [C|[C|[C|[]]]]; rewrite <- C in *; injection L as L; injection L' as L'; cbn [first_setting settings_of window_settings map length]; lia.
Qed.
Print Assumptions C149_determined.
(** The table start 0.5 is shown like 0. *)
Definition table_entry (a b : bytes) : entry := Entry KTable [13; 0] [17] (s2l "TblSet" ++ zeros 2) [0] [0] (Buf true ([18; 0] ++ a ++ b)).
Theorem C149_table_refuted : exists a b c D, stored_number a /\ stored_number b /\ stored_number c /\ a <> b /\
  settings_values (table_entry a c) = Ok D /\ settings_values (table_entry b c) = Ok D /\ D = [(s2l "TblMin", JNum 0 0); (s2l "DeltaTbl", JNum 1 0)].
Proof.
  exists zero_bytes, [0; 127; 80; 0; 0; 0; 0; 0; 0], [0; 128; 16; 0; 0; 0; 0; 0; 0]. eexists. split; [now left|].
  split; [right; exists false, 127, 50000000000000; split; [apply (stored_payload 0 false 127 50000000000000); lia|split; [unfold is_byte; lia|lia]]|].
  split; [right; exists false, 128, 10000000000000; split; [apply (stored_payload 0 false 128 10000000000000); lia|split; [unfold is_byte; lia|lia]]|].
  split; [discriminate|]. repeat apply conj; vm_compute; reflexivity.
Qed.
Print Assumptions C149_table_refuted.
Example C149_example : settings_values (table_entry [128; 129; 55; 0; 0; 0; 0; 0; 0] [0; 128; 16; 0; 0; 0; 0; 0; 0]) = Ok [(s2l "TblMin", JNum (-37) 0); (s2l "DeltaTbl", JNum 1 0)] /\
  settings_values (Entry KRecallWindow [13; 0] [16] (s2l "RclWindw") [0] [0] (Buf true ([207; 0] ++ [128; 129; 16; 0; 0; 0; 0; 0; 0] ++ concat (repeat [0; 127; 19; 8; 153; 105; 56; 153; 87] 11) ++ concat (repeat [0; 128; 16; 0; 0; 0; 0; 0; 0] 11)))) =
    Ok ([(s2l "Xmin", JNum (-100) (-1))] ++ map (fun n => (n, JStr (s2l "0.13089969389957"))) (firstn 11 (skipn 1 window_settings)) ++ map (fun n => (n, if must_be_whole n then JNum 1 0 else JNum 10 (-1))) (skipn 12 window_settings)) /\
  setting_ok (s2l "TblMin") [128; 129; 55; 0; 0; 0; 0; 0; 0].
Proof.
  split; [vm_compute; reflexivity|]. split; [vm_compute; reflexivity|]. right. exists true, 129, 37000000000000. split; [apply (stored_payload 0 true 129 37000000000000); lia|]. split; [lia|]. split; [lia|]. exists 37. reflexivity.
Qed.
