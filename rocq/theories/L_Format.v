(** Lemmas about hexadecimal dumps. *)
From Verif Require Import L_Base M_Data M_Real M_Text M_TText M_Format S_Format P_ListText.

(** ** Groups *)
Definition due (n len i : Z) : bool := if n =? 0 then false else if 0 <? n then (len - i) mod n =? 0 else i mod (- n) =? 0.
(** The groups of a list starting at offset [o] are those between separators. *)
Fixpoint good (n len o : Z) (gs : list bytes) : Prop :=
  match gs with
  | [] => True
  | g :: r => 0 < zlen g /\ (0 < o -> due n len o = true) /\ (forall j, 0 < j < zlen g -> due n len (o + j) = false) /\ good n len (o + zlen g) r
  end.
Lemma good_app n len a : forall o b, good n len o a -> good n len (o + zlen (concat a)) b -> good n len o (a ++ b).
Proof.
  induction a as [|g a IH]; intros o b GA GB.
  - cbn [app concat] in *. change (zlen (@nil Z)) with 0 in GB. now rewrite Z.add_0_r in GB.
  - cbn [app good concat] in *. destruct GA as (L & D & N & R). rewrite zlen_app in GB. split; [exact L|]. split; [exact D|]. split; [exact N|].
    apply IH; [exact R|]. now rewrite <- Z.add_assoc.
Qed.
Lemma separated_due n len i : 0 < i -> separated n len i = due n len i.
Proof. intros H. unfold separated, due. now replace (0 <? i) with true by lia. Qed.

Lemma hex_cased (l : bool) b : is_byte b -> cased l (hex_byte b) = two_digits l b.
Proof.
  intros B. assert (A : forallb (fun b => leqb (cased l (hex_byte b)) (two_digits l b)) (map Z.of_nat (seq 0 256)) = true) by (destruct l; vm_compute; reflexivity).
  rewrite forallb_forall in A. apply leqb_spec, A. apply in_map_iff. exists (Z.to_nat b). unfold is_byte in B. split; [lia|]. apply in_seq. lia.
Qed.
Lemma cased_app l a b : cased l (a ++ b) = cased l a ++ cased l b.
Proof. apply map_app. Qed.
Lemma cased_case (l : bool) c : cased l [c] = [case_of l c].
Proof. destruct l; reflexivity. Qed.
Lemma dump_app l sep n len a : forall b i, dump_from l sep n len i (a ++ b) = dump_from l sep n len i a ++ dump_from l sep n len (i + zlen a) b.
Proof.
  induction a as [|x a IH]; intros b i; [now rewrite Z.add_0_r|]. cbn [app dump_from]. rewrite IH, zlen_cons. rewrite <- !app_assoc. do 4 f_equal. lia.
Qed.
(** Inside a group there is no separator. *)
Lemma dump_inside l sep n len g : forall i, 0 < i -> wf_bytes g -> (forall j, 0 <= j < zlen g -> due n len (i + j) = false) ->
  dump_from l sep n len i g = cased l (hex_plain g).
Proof.
  induction g as [|b g IH]; intros i P W H; [reflexivity|]. inversion W as [|? ? B W']; subst. cbn [dump_from]. pose proof (zlen_nonneg g) as ZG.
  rewrite separated_due by exact P. rewrite <- (Z.add_0_r i) at 1. rewrite H by (rewrite zlen_cons; lia). cbn [app].
  change (hex_plain (b :: g)) with (hex_byte b ++ hex_plain g). rewrite cased_app, hex_cased by exact B. f_equal.
  apply IH; [lia|exact W'|]. intros j J. replace (i + 1 + j) with (i + (1 + j)) by lia. apply H. rewrite zlen_cons. lia.
Qed.
Lemma dump_group l sep n len o g : 0 <= o -> 0 < zlen g -> wf_bytes g -> (0 < o -> due n len o = true) -> (forall j, 0 < j < zlen g -> due n len (o + j) = false) ->
  dump_from l sep n len o g = (if 0 <? o then [case_of l sep] else []) ++ cased l (hex_plain g).
Proof.
  intros O P W D N. destruct g as [|b g]; [exfalso; clear - P; vm_compute in P; discriminate P|]. inversion W as [|? ? B W']; subst. cbn [dump_from]. f_equal.
  - destruct (0 <? o) eqn:E; [rewrite separated_due by lia; now rewrite D by lia|]. unfold separated. now rewrite E.
  - change (hex_plain (b :: g)) with (hex_byte b ++ hex_plain g). rewrite cased_app, hex_cased by exact B. f_equal.
    apply dump_inside; [lia|exact W'|]. intros j J. replace (o + 1 + j) with (o + (1 + j)) by lia. apply N. rewrite zlen_cons. lia.
Qed.
Lemma dump_groups l sep n len gs : forall o, 0 < o -> Forall wf_bytes gs -> good n len o gs ->
  dump_from l sep n len o (concat gs) = concat (map (fun g => case_of l sep :: cased l (hex_plain g)) gs).
Proof.
  induction gs as [|g gs IH]; intros o P W G; [reflexivity|]. inversion W as [|? ? B W']; subst. destruct G as (L & D & N & R).
  cbn [concat map]. rewrite dump_app, dump_group by (auto; lia). replace (0 <? o) with true by lia. rewrite IH; [reflexivity|lia|exact W'|exact R].
Qed.
Lemma joined_rest sep (t : str) ts : joined [sep] (t :: ts) = t ++ concat (map (cons sep) ts).
Proof.
  revert t. induction ts as [|u ts IH]; intros t; [cbn; now rewrite app_nil_r|]. rewrite joined_cons, IH. reflexivity.
Qed.
Lemma cased_joined l sep ts : cased l (concat (map (fun g => cons sep (hex_plain g)) ts)) = concat (map (fun g => case_of l sep :: cased l (hex_plain g)) ts).
Proof.
  induction ts as [|t ts IH]; [reflexivity|]. cbn [map concat]. rewrite cased_app, IH. f_equal. change (sep :: hex_plain t) with ([sep] ++ hex_plain t). rewrite cased_app, cased_case. reflexivity.
Qed.
Lemma good_dump l sep n gs : gs <> [] -> Forall wf_bytes gs -> good n (zlen (concat gs)) 0 gs ->
  cased l (joined [sep] (map hex_plain gs)) = dump l sep n (concat gs).
Proof.
  intros NE W G. destruct gs as [|g gs]; [contradiction|]. inversion W as [|? ? B W']; subst. destruct G as (L & D & N & R).
  unfold dump. set (len := zlen (concat (g :: gs))) in *. cbn [map concat]. rewrite joined_rest, cased_app, map_map, cased_joined, dump_app, dump_group by (auto; lia).
  change (0 <? 0) with false. cbn [app]. f_equal. symmetry. apply dump_groups; auto; lia.
Qed.

Lemma groups_concat k : (0 < k)%nat -> forall fuel d, (length d <= fuel)%nat -> concat (groups_of fuel k d) = d.
Proof.
  intros K. induction fuel as [|fuel IH]; intros d L; [destruct d; [reflexivity|cbn in L; lia]|]. destruct d as [|x d]; [reflexivity|].
  cbn [groups_of concat]. rewrite IH; [apply firstn_skipn|]. rewrite skipn_length. cbn [length] in *. lia.
Qed.
Lemma groups_wf k fuel : forall d, wf_bytes d -> Forall wf_bytes (groups_of fuel k d).
Proof.
  induction fuel as [|fuel IH]; intros d W; [destruct d; constructor|]. destruct d as [|x d]; [constructor|]. cbn [groups_of]. constructor; [now apply wf_firstn|apply IH; now apply wf_skipn].
Qed.
Lemma groups_left n len (k : nat) : n < 0 -> Z.of_nat k = - n -> forall fuel d o, (length d <= fuel)%nat -> 0 <= o -> o mod (- n) = 0 -> good n len o (groups_of fuel k d).
Proof.
  intros N K. induction fuel as [|fuel IH]; intros d o L O M; [destruct d; exact I|]. destruct d as [|x d]; [exact I|]. cbn [groups_of]. set (d0 := x :: d) in *.
  assert (LZ : zlen (firstn k d0) = Z.min (Z.of_nat k) (zlen d0)) by (unfold zlen; rewrite firstn_length; lia).
  assert (L0 : 0 < zlen d0) by (unfold d0; rewrite zlen_cons; pose proof (zlen_nonneg d); lia).
  assert (DU : forall i, due n len i = (i mod (- n) =? 0)) by (intros i; unfold due; replace (n =? 0) with false by lia; replace (0 <? n) with false by lia; reflexivity).
  split; [lia|]. split; [intros _; rewrite DU; lia|]. split.
  - intros j J. rewrite DU. rewrite Z.add_mod, M, Z.add_0_l, Z.mod_mod by lia. rewrite Z.mod_small by lia. lia.
  - destruct (Z.le_gt_cases (zlen d0) (Z.of_nat k)) as [S|S].
    + replace (skipn k d0) with (@nil Z) by (symmetry; apply skipn_all2; unfold zlen in S; lia). destruct fuel; exact I.
    + apply IH; [rewrite skipn_length; unfold d0 in *; cbn [length] in *; lia|lia|]. rewrite LZ, Z.min_l by lia. rewrite K, Z.add_mod, M, Z.mod_same by lia. reflexivity.
Qed.
Lemma rev_groups_concat gs : concat (rev (map (@rev Z) gs)) = rev (concat gs).
Proof.
  induction gs as [|g gs IH]; [reflexivity|]. cbn [map rev concat]. rewrite concat_app, IH, rev_app_distr. cbn [concat]. now rewrite app_nil_r.
Qed.
Lemma zlen_rev {A} (l : list A) : zlen (rev l) = zlen l.
Proof. unfold zlen. now rewrite rev_length. Qed.
Lemma groups_right n len (k : nat) : 0 < n -> Z.of_nat k = n -> forall fuel d, (length d <= fuel)%nat -> (len - zlen d) mod n = 0 ->
  good n len 0 (rev (map (@rev Z) (groups_of fuel k d))).
Proof.
  intros N K. induction fuel as [|fuel IH]; intros d L M; [destruct d; exact I|]. destruct d as [|x d]; [exact I|]. cbn [groups_of map rev]. set (d0 := x :: d) in *.
  assert (LZ : zlen (firstn k d0) = Z.min (Z.of_nat k) (zlen d0)) by (unfold zlen; rewrite firstn_length; lia).
  assert (L0 : 0 < zlen d0) by (unfold d0; rewrite zlen_cons; pose proof (zlen_nonneg d); lia).
  assert (DU : forall i, due n len i = ((len - i) mod n =? 0)) by (intros i; unfold due; replace (n =? 0) with false by lia; replace (0 <? n) with true by lia; reflexivity).
  assert (F : (length (skipn k d0) <= fuel)%nat) by (rewrite skipn_length; unfold d0 in *; cbn [length] in *; lia).
  assert (KN : (0 < k)%nat) by lia.
  destruct (Z.le_gt_cases (zlen d0) (Z.of_nat k)) as [S|S].
  - replace (skipn k d0) with (@nil Z) by (symmetry; apply skipn_all2; unfold zlen in S; lia).
    replace (groups_of fuel k []) with (@nil bytes) by (destruct fuel; reflexivity). cbn [map rev app good]. rewrite zlen_rev, LZ, Z.min_r by lia. split; [lia|]. split; [lia|]. split; [|exact I].
    intros j J. rewrite DU. replace (len - (0 + j)) with ((len - zlen d0) + (zlen d0 - j)) by lia. rewrite Z.add_mod, M, Z.add_0_l, Z.mod_mod by lia. rewrite Z.mod_small by lia. lia.
  - assert (LS : zlen (skipn k d0) = zlen d0 - n) by (unfold zlen in *; rewrite skipn_length; lia).
    apply good_app.
    + apply IH; [exact F|]. rewrite LS. replace (len - (zlen d0 - n)) with ((len - zlen d0) + 1 * n) by lia. now rewrite Z.mod_add by lia.
    + rewrite rev_groups_concat, groups_concat, zlen_rev, LS by (auto; lia). cbn [good]. rewrite zlen_rev, LZ, Z.min_l by lia. split; [lia|]. split; [|split; [|exact I]].
      * intros _. rewrite DU. replace (len - (0 + (zlen d0 - n))) with ((len - zlen d0) + 1 * n) by lia. rewrite Z.mod_add by lia. lia.
      * intros j J. rewrite DU. replace (len - (0 + (zlen d0 - n) + j)) with ((len - zlen d0) + (n - j)) by lia. rewrite Z.add_mod, M, Z.add_0_l, Z.mod_mod by lia. rewrite Z.mod_small by lia. lia.
Qed.

Lemma dump_none l sep n d : wf_bytes d -> (forall j, 0 < j < zlen d -> due n (zlen d) j = false) -> cased l (hex_plain d) = dump l sep n d.
Proof.
  intros W H. destruct d as [|b d]; [reflexivity|]. inversion W as [|? ? B W']; subst. unfold dump. cbn [dump_from]. change (separated n (zlen (b :: d)) 0) with false. cbn [app].
  change (hex_plain (b :: d)) with (hex_byte b ++ hex_plain d). rewrite cased_app, hex_cased by exact B. f_equal. symmetry.
  apply dump_inside; [lia|exact W'|]. intros j J. rewrite zlen_cons. replace (0 + 1 + j) with (1 + j) by lia. rewrite zlen_cons in H. apply H. lia.
Qed.
Lemma groups_nonempty fuel k x d : groups_of (S fuel) k (x :: d) <> [].
Proof. discriminate. Qed.
Lemma hex_layout l sep n d : wf_bytes d -> cased l (joined [sep] (map hex_plain (hex_groups n d))) = dump l sep n d.
Proof.
  intros W. unfold hex_groups. destruct (n =? 0) eqn:N0.
  { cbn [orb map joined]. apply dump_none; auto. intros j J. unfold due. now rewrite N0. }
  cbn [orb]. destruct (zlen d <=? Z.abs n) eqn:B.
  { cbn [map joined]. apply dump_none; auto. intros j J. unfold due. rewrite N0. destruct (0 <? n) eqn:S; rewrite Z.mod_small by lia; lia. }
  destruct d as [|x d]; [exfalso; clear - B N0; change (zlen (@nil Z)) with 0 in B; lia|]. destruct (n <? 0) eqn:S.
  - pose proof (groups_concat (Z.to_nat (- n)) ltac:(lia) (length (x :: d)) (x :: d) (Nat.le_refl _)) as C.
    transitivity (dump l sep n (concat (groups_of (length (x :: d)) (Z.to_nat (- n)) (x :: d)))); [|now rewrite C]. apply good_dump.
    + discriminate.
    + now apply groups_wf.
    + rewrite C. apply groups_left; auto; lia.
  - pose proof (groups_concat (Z.to_nat n) ltac:(lia) (length (x :: d)) (rev (x :: d))) as C. rewrite rev_length in C. specialize (C (Nat.le_refl _)).
    assert (CR : concat (rev (map (@rev Z) (groups_of (length (x :: d)) (Z.to_nat n) (rev (x :: d))))) = x :: d).
    { rewrite rev_groups_concat, C. apply rev_involutive. }
    transitivity (dump l sep n (concat (rev (map (@rev Z) (groups_of (length (x :: d)) (Z.to_nat n) (rev (x :: d))))))); [|now rewrite CR]. apply good_dump.
    + intros E. rewrite E in CR. discriminate CR.
    + apply Forall_rev. apply Forall_forall. intros g Hg. apply in_map_iff in Hg as (g' & <- & Hg').
      pose proof (groups_wf (Z.to_nat n) (length (x :: d)) (rev (x :: d)) (Forall_rev W)) as GW. rewrite Forall_forall in GW. apply Forall_rev, GW, Hg'.
    + rewrite CR. apply groups_right; auto; [lia|lia|rewrite rev_length; lia|]. rewrite zlen_rev. now rewrite Z.sub_diag.
Qed.

(** ** Injectivity *)
Lemma digits_inj (l : bool) a b : 0 <= a < 16 -> 0 <= b < 16 -> nth (Z.to_nat a) (hex_table l) 0 = nth (Z.to_nat b) (hex_table l) 0 -> a = b.
Proof.
  intros A B E. assert (X : forallb (fun a => forallb (fun b => if nth (Z.to_nat a) (hex_table l) 0 =? nth (Z.to_nat b) (hex_table l) 0 then a =? b else true) (map Z.of_nat (seq 0 16))) (map Z.of_nat (seq 0 16)) = true) by (destruct l; vm_compute; reflexivity).
  rewrite forallb_forall in X. specialize (X a). rewrite forallb_forall in X. specialize (X ltac:(apply in_map_iff; exists (Z.to_nat a); split; [lia|apply in_seq; lia]) b).
  specialize (X ltac:(apply in_map_iff; exists (Z.to_nat b); split; [lia|apply in_seq; lia])). rewrite E, Z.eqb_refl in X. now apply Z.eqb_eq in X.
Qed.
Lemma two_inj l a b : is_byte a -> is_byte b -> two_digits l a = two_digits l b -> a = b.
Proof.
  intros A B E. unfold two_digits in E. injection E as E1 E2. unfold is_byte in *. apply digits_inj in E1; [|lia|lia]. apply digits_inj in E2; [|lia|lia].
  rewrite (Z.div_mod a 16), (Z.div_mod b 16), E1, E2 by lia. reflexivity.
Qed.
Lemma dump_from_inj l sep n len d1 : forall d2 i, length d1 = length d2 -> wf_bytes d1 -> wf_bytes d2 -> dump_from l sep n len i d1 = dump_from l sep n len i d2 -> d1 = d2.
Proof.
  induction d1 as [|a d1 IH]; intros [|b d2] i L W1 W2 E; try discriminate L; [reflexivity|]. inversion W1 as [|? ? A1 W1']; inversion W2 as [|? ? A2 W2']; subst.
  cbn [dump_from] in E. apply app_inv_head in E. change (two_digits l a ++ dump_from l sep n len (i + 1) d1) with ([nth (Z.to_nat (a / 16)) (hex_table l) 0; nth (Z.to_nat (a mod 16)) (hex_table l) 0] ++ dump_from l sep n len (i + 1) d1) in E.
  unfold two_digits in E. assert (E1 := f_equal (firstn 2) E). assert (E2 := f_equal (skipn 2) E). cbn [app firstn skipn] in E1, E2.
  f_equal; [now apply (two_inj l)|]. injection L as L. now apply (IH d2 (i + 1)).
Qed.
Lemma div_step k n : 0 < n -> (k + 1) / n = k / n + (if (k + 1) mod n =? 0 then 1 else 0).
Proof.
  intros N. pose proof (Z.div_mod k n ltac:(lia)) as D. pose proof (Z.mod_pos_bound k n N) as B. set (q := k / n) in *. set (r := k mod n) in *. clearbody q r. subst k.
  destruct (Z.eq_dec r (n - 1)) as [->|R].
  - replace (n * q + (n - 1) + 1) with ((q + 1) * n) by ring. rewrite Z.mod_mul, Z.div_mul by lia. reflexivity.
  - replace (n * q + r + 1) with ((r + 1) + q * n) by ring. rewrite Z.mod_add, Z.div_add, Z.mod_small, Z.div_small by lia. replace (r + 1 =? 0) with false by lia. lia.
Qed.
Lemma zlen_two l b : zlen (two_digits l b) = 2.
Proof. reflexivity. Qed.
Lemma dump_from_right l sep n : 0 < n -> forall d i, 0 < i -> zlen (dump_from l sep n (i + zlen d) i d) = 2 * zlen d + zlen d / n.
Proof.
  intros N. induction d as [|b d IH]; intros i I; [cbn [dump_from]; change (zlen (@nil Z)) with 0; rewrite Z.div_0_l by lia; reflexivity|].
  cbn [dump_from]. rewrite !zlen_app, zlen_two, !zlen_cons. replace (i + (1 + zlen d)) with (i + 1 + zlen d) by lia. rewrite IH by lia.
  unfold separated. replace (0 <? i) with true by lia. replace (n =? 0) with false by lia. replace (0 <? n) with true by lia. cbn [andb].
  replace (i + 1 + zlen d - i) with (zlen d + 1) by lia. replace (1 + zlen d) with (zlen d + 1) by lia. rewrite div_step by lia. destruct ((zlen d + 1) mod n =? 0); change (zlen [case_of l sep]) with 1; change (zlen (@nil Z)) with 0; lia.
Qed.
Lemma dump_from_left l sep n len : n < 0 -> forall d i, 0 < i -> zlen (dump_from l sep n len i d) = 2 * zlen d + (i + zlen d - 1) / (- n) - (i - 1) / (- n).
Proof.
  intros N. induction d as [|b d IH]; intros i I; [cbn [dump_from]; change (zlen (@nil Z)) with 0; rewrite Z.add_0_r; lia|].
  cbn [dump_from]. rewrite !zlen_app, zlen_two, !zlen_cons. rewrite IH by lia.
  unfold separated. replace (0 <? i) with true by lia. replace (n =? 0) with false by lia. replace (0 <? n) with false by lia. cbn [andb].
  replace (i + (1 + zlen d) - 1) with (i + 1 + zlen d - 1) by lia. replace (i + 1 - 1) with (i - 1 + 1) by lia. rewrite (div_step (i - 1)) by lia. replace (i - 1 + 1) with i by lia.
  destruct (i mod - n =? 0); change (zlen [case_of l sep]) with 1; change (zlen (@nil Z)) with 0; lia.
Qed.
Lemma dump_from_zero l sep len d : forall i, zlen (dump_from l sep 0 len i d) = 2 * zlen d.
Proof.
  induction d as [|b d IH]; intros i; [reflexivity|]. cbn [dump_from]. unfold separated. cbn [Z.eqb]. rewrite Bool.andb_false_r. rewrite !zlen_app, zlen_two, zlen_cons, IH. change (zlen (@nil Z)) with 0. lia.
Qed.
(** The length of a dump: two digits for each byte, and one separator fewer than
    there are groups. *)
Lemma dump_length l sep n d : zlen (dump l sep n d) = if n =? 0 then 2 * zlen d else if zlen d =? 0 then 0 else 2 * zlen d + (zlen d - 1) / Z.abs n.
Proof.
  unfold dump. destruct (n =? 0) eqn:N0; [apply Z.eqb_eq in N0 as ->; apply dump_from_zero|]. destruct d as [|b d]; [reflexivity|].
  rewrite zlen_cons. pose proof (zlen_nonneg d) as P. replace (1 + zlen d =? 0) with false by lia. cbn [dump_from]. change (separated n (1 + zlen d) 0) with false. cbn [app].
  rewrite zlen_app, zlen_two. change (0 + 1) with 1. destruct (0 <? n) eqn:S.
  - rewrite dump_from_right by lia. replace (1 + zlen d - 1) with (zlen d) by lia. rewrite Z.abs_eq by lia. lia.
  - rewrite dump_from_left by lia. change (1 - 1) with 0. rewrite Z.div_0_l by lia. rewrite Z.abs_neq by lia. lia.
Qed.
Lemma dump_inj l sep n d1 d2 : wf_bytes d1 -> wf_bytes d2 -> dump l sep n d1 = dump l sep n d2 -> d1 = d2.
Proof.
  intros W1 W2 E. assert (L : zlen d1 = zlen d2).
  { assert (Z1 := dump_length l sep n d1). assert (Z2 := dump_length l sep n d2). rewrite E in Z1. rewrite Z1 in Z2. clear E Z1 W1 W2. pose proof (zlen_nonneg d1) as P1. pose proof (zlen_nonneg d2) as P2. set (a := zlen d1) in *. set (b := zlen d2) in *. clearbody a b.
    destruct (n =? 0) eqn:N; [lia|]. assert (A : 0 < Z.abs n) by lia. set (m := Z.abs n) in *. clearbody m. clear N.
    assert (M : forall x y, 1 <= x -> x < y -> 2 * x + (x - 1) / m < 2 * y + (y - 1) / m) by (intros x y X Y; pose proof (Z.div_le_mono (x - 1) (y - 1) m A ltac:(lia)); lia).
    assert (P : forall x, 1 <= x -> 0 < 2 * x + (x - 1) / m) by (intros x X; pose proof (Z.div_pos (x - 1) m ltac:(lia) A); lia).
    destruct (a =? 0) eqn:A0; destruct (b =? 0) eqn:B0; [lia|specialize (P b ltac:(lia)); clear - Z2 P; set (q := (b - 1) / m) in *; lia|specialize (P a ltac:(lia)); clear - Z2 P; set (q := (a - 1) / m) in *; lia|].
    destruct (Z.lt_trichotomy a b) as [H|[H|H]]; [|exact H|].
    - pose proof (M a b ltac:(lia) H) as X. exfalso. clear - X Z2. set (q := (a - 1) / m) in *. set (q' := (b - 1) / m) in *. lia.
    - pose proof (M b a ltac:(lia) H) as X. exfalso. clear - X Z2. set (q := (a - 1) / m) in *. set (q' := (b - 1) / m) in *. lia. }
  unfold dump in E. rewrite L in E. apply (dump_from_inj _ _ _ _ _ _ _) in E; auto. unfold zlen in L. lia.
Qed.

(** ** Format strings *)
Section Spec.
  Context (uni_digit : Z -> option Z).
  Notation dc := (digit_char uni_digit).
Lemma digit_of_spec c d : digit_of uni_digit c = Some d <-> dc c d.
  Proof.
    unfold digit_of, digit_char. destruct ((48 <=? c) && (c <=? 57)) eqn:E.
    - replace (c <? 128) with true by lia. split; [intros [= <-]; split; [lia|reflexivity]|intros (_ & ->); reflexivity].
    - destruct (c <? 128) eqn:F; [split; [discriminate|lia]|reflexivity].
  Qed.
Lemma digit_of_none c : digit_of uni_digit c = None <-> forall d, ~ dc c d.
  Proof.
    destruct (digit_of uni_digit c) as [d|] eqn:E.
    - split; [discriminate|]. intros H. destruct (H d). now apply digit_of_spec.
    - split; [|reflexivity]. intros _ d D. apply digit_of_spec in D. congruence.
  Qed.
Lemma take_digits_app cs ds : Forall2 dc cs ds -> forall c r, digit_of uni_digit c = None -> take_digits uni_digit (cs ++ c :: r) = (ds, c :: r).
  Proof.
    induction 1 as [|x d cs ds X F IH]; intros c r N; cbn [app take_digits]; [now rewrite N|]. apply digit_of_spec in X. rewrite X, IH by exact N. reflexivity.
  Qed.
Lemma take_digits_inv s : forall ds t, take_digits uni_digit s = (ds, t) -> exists cs, s = cs ++ t /\ Forall2 dc cs ds.
  Proof.
    induction s as [|c s IH]; intros ds t E; [injection E as <- <-; now exists []|]. cbn [take_digits] in E. destruct (digit_of uni_digit c) as [d|] eqn:D.
    - destruct (take_digits uni_digit s) as [ds' t'] eqn:T. injection E as <- <-. destruct (IH ds' t' eq_refl) as (cs & -> & F). exists (c :: cs). split; [reflexivity|]. constructor; [now apply digit_of_spec|exact F].
    - injection E as <- <-. now exists [].
  Qed.
Lemma letter_no_digit l : digit_of uni_digit (letter l) = None.
  Proof. destruct l; reflexivity. Qed.
Lemma case_sep_spec s l p : case_sep uni_digit s = Some (l, p) <-> s = letter l :: match p with Some c => [c] | None => [] end /\ (forall c d, p = Some c -> ~ dc c d).
  Proof.
    split.
    - destruct s as [|c r]; [discriminate|]. cbn [case_sep]. destruct ((c =? 120) || (c =? 88)) eqn:E; [|discriminate].
      assert (C : c = letter (c =? 120)) by (unfold letter; destruct (c =? 120) eqn:F; lia). destruct r as [|x r]; [intros [= <- <-]; split; [now rewrite <- C|discriminate]|].
      destruct r; [|discriminate]. destruct (digit_of uni_digit x) eqn:D; [discriminate|]. intros [= <- <-]. split; [now rewrite <- C|]. intros c' d' [= <-]. now apply digit_of_none.
    - intros (-> & H). destruct p as [c|]; cbn [case_sep]; [|destruct l; reflexivity]. assert (D : digit_of uni_digit c = None) by (apply digit_of_none; intros d; now apply H). rewrite D. destruct l; reflexivity.
  Qed.
Definition width_of (sg : str) (ds : list Z) : option (bool * list Z) :=
    match ds with [] => None | _ => Some (match sg with 45 :: _ => true | _ => false end, ds) end.
Lemma hex_spec_shape s sg ds l p : hex_shape uni_digit s sg ds l p -> hex_spec uni_digit s = Some (width_of sg ds, l, p).
  Proof.
    intros (cs & -> & F & SG & P). set (tl := letter l :: match p with Some c => [c] | None => [] end).
    assert (T : take_digits uni_digit (cs ++ tl) = (ds, tl)) by (apply take_digits_app; [exact F|apply letter_no_digit]).
    assert (CS : case_sep uni_digit tl = Some (l, p)) by (apply case_sep_spec; now split).
    destruct SG as [->|([->| ->] & NE)].
    - cbn [app]. unfold hex_spec. destruct F as [|c d cs ds X F].
      + cbn [app] in T |- *.
        unfold tl in T, CS |- *. destruct l; cbn [letter Z.eqb Pos.eqb] in T, CS |- *; rewrite T, CS; reflexivity.
      + assert (N : (c =? 45) = false /\ (c =? 43) = false) by (unfold digit_char in X; destruct (c <? 128) eqn:Q; split; lia). destruct N as (N1 & N2).
        cbn [app] in T |- *. rewrite N1, N2, T, CS. reflexivity.
    - destruct ds as [|d ds]; [contradiction|]. change (s2l "+") with [43]. cbn [app]. unfold hex_spec. cbn [Z.eqb Pos.eqb]. rewrite T, CS. reflexivity.
    - destruct ds as [|d ds]; [contradiction|]. change (s2l "-") with [45]. cbn [app]. unfold hex_spec. cbn [Z.eqb Pos.eqb]. rewrite T, CS. reflexivity.
  Qed.
Lemma hex_spec_inv s w l p : hex_spec uni_digit s = Some (w, l, p) -> exists sg ds, hex_shape uni_digit s sg ds l p /\ w = width_of sg ds.
  Proof.
    unfold hex_spec. intros H.
    set (sr := match s with c :: r => if c =? 45 then (true, r) else if c =? 43 then (false, r) else (false, s) | [] => (false, s) end) in H.
    assert (S : (exists r, sr = (true, r) /\ s = s2l "-" ++ r) \/ (exists r, sr = (false, r) /\ s = s2l "+" ++ r) \/ sr = (false, s)).
    { unfold sr. destruct s as [|c r]; [auto|]. destruct (c =? 45) eqn:A; [left; exists r; split; [reflexivity|]; apply Z.eqb_eq in A as ->; reflexivity|].
      destruct (c =? 43) eqn:B; [right; left; exists r; split; [reflexivity|]; apply Z.eqb_eq in B as ->; reflexivity|auto]. }
    clearbody sr. assert (PLAIN : case_sep uni_digit s = Some (l, p) -> w = None -> exists sg ds, hex_shape uni_digit s sg ds l p /\ w = width_of sg ds).
    { intros C ->. exists [], []. split; [|reflexivity]. apply case_sep_spec in C as (C & P). exists []. split; [exact C|]. split; [constructor|]. split; [now left|exact P]. }
    destruct S as [(r & -> & E)|[(r & -> & E)| ->]]; cbn beta iota zeta in H.
    - destruct (take_digits uni_digit r) as [ds t] eqn:T. destruct ds as [|d ds].
      + destruct (case_sep uni_digit s) as [[l' p']|] eqn:C; [|discriminate]. injection H as <- <- <-. now apply PLAIN.
      + destruct (case_sep uni_digit t) as [[l' p']|] eqn:C; [|discriminate]. injection H as <- <- <-. apply take_digits_inv in T as (cs & -> & F). apply case_sep_spec in C as (-> & P).
        exists (s2l "-"), (d :: ds). split; [|reflexivity]. exists cs. split; [exact E|]. split; [exact F|]. split; [right; split; [now right|discriminate]|exact P].
    - destruct (take_digits uni_digit r) as [ds t] eqn:T. destruct ds as [|d ds].
      + destruct (case_sep uni_digit s) as [[l' p']|] eqn:C; [|discriminate]. injection H as <- <- <-. now apply PLAIN.
      + destruct (case_sep uni_digit t) as [[l' p']|] eqn:C; [|discriminate]. injection H as <- <- <-. apply take_digits_inv in T as (cs & -> & F). apply case_sep_spec in C as (-> & P).
        exists (s2l "+"), (d :: ds). split; [|reflexivity]. exists cs. split; [exact E|]. split; [exact F|]. split; [right; split; [now left|discriminate]|exact P].
    - destruct (take_digits uni_digit s) as [ds t] eqn:T. destruct ds as [|d ds].
      + destruct (case_sep uni_digit s) as [[l' p']|] eqn:C; [|discriminate]. injection H as <- <- <-. now apply PLAIN.
      + destruct (case_sep uni_digit t) as [[l' p']|] eqn:C; [|discriminate]. injection H as <- <- <-. apply take_digits_inv in T as (cs & -> & F). apply case_sep_spec in C as (-> & P).
        exists [], (d :: ds). split; [|reflexivity]. exists cs. split; [reflexivity|]. split; [exact F|]. split; [now left|exact P].
  Qed.
Lemma fold_places ds : forall a, fold_left (fun a d => 10 * a + d) ds a = a * 10 ^ zlen ds + places ds.
  Proof.
    induction ds as [|d ds IH]; intros a; cbn [fold_left places]; [change (zlen (@nil Z)) with 0; rewrite Z.pow_0_r; lia|]. rewrite IH, zlen_cons. rewrite Z.pow_add_r, Z.pow_1_r by (pose proof (zlen_nonneg ds); lia). ring.
  Qed.
Lemma width_value_places (neg : bool) ds : zlen ds <= 4300 -> width_value neg ds = Ok (if neg then - places ds else places ds).
  Proof. intros L. unfold width_value. replace (4300 <? zlen ds) with false by lia. rewrite fold_places. rewrite Z.mul_0_l, Z.add_0_l. reflexivity. Qed.
(** Everything about a dump. *)
Lemma entry_format_shape default s sg ds l p d : hex_shape uni_digit s sg ds l p -> wf_bytes d ->
    entry_format uni_digit default s d =
    let n := asked_width sg ds p in
    if 4300 <? zlen ds then Err ValueError
    else if (n <? - 2 ^ 31) || (2 ^ 31 <=? n) then Err OverflowError
    else if 127 <? asked_sep p then Err ValueError
    else Ok (dump l (asked_sep p) n d).
  Proof.
    intros H W. unfold entry_format. rewrite (hex_spec_shape _ _ _ _ _ H). destruct ds as [|x ds].
    - cbn [width_of asked_width]. change (4300 <? zlen (@nil Z)) with false. cbn [andb]. destruct p as [c|]; cbn beta iota zeta.
      + unfold bytes_hex. change ((1 <? - 2 ^ 31) || (2 ^ 31 <=? 1)) with false. cbn beta iota. cbn [asked_sep]. destruct (127 <? c); [reflexivity|]. cbn [rbind]. f_equal. now apply hex_layout.
      + change ((0 <? - 2 ^ 31) || (2 ^ 31 <=? 0)) with false. change (127 <? asked_sep None) with false. cbn [rbind]. f_equal. apply dump_none; [exact W|]. intros j _. reflexivity.
    - cbn [width_of asked_width]. set (neg := match sg with 45 :: _ => true | _ => false end). set (n := match sg with 45 :: _ => - places (x :: ds) | _ => places (x :: ds) end).
      assert (NE : n = if neg then - places (x :: ds) else places (x :: ds)).
      { unfold n, neg. destruct sg as [|c sg]; [reflexivity|]. destruct c; try reflexivity. do 6 (destruct p0; try reflexivity). }
      clearbody n. cbn zeta. destruct (4300 <? zlen (x :: ds)) eqn:L.
      { unfold width_value. rewrite L. destruct p; reflexivity. }
      rewrite width_value_places by lia. rewrite <- NE. cbn [rbind]. destruct p as [c|]; cbn [asked_sep]; unfold bytes_hex; (destruct ((n <? - 2 ^ 31) || (2 ^ 31 <=? n)); [reflexivity|]).
      + destruct (127 <? c); [reflexivity|]. cbn [rbind]. f_equal. now apply hex_layout.
      + change (127 <? 32) with false. cbn [rbind]. f_equal. now apply hex_layout.
  Qed.
End Spec.

(** ** Tokenized entries *)
Section Tokens.
  Context (uni_digit : Z -> option Z) (uni_word : Z -> bool).
  Context (digits_words : forall c d, uni_digit c = Some d -> uni_word c = true).
  Notation dc := (digit_char uni_digit).
Lemma digit_word c d : dc c d -> word uni_word c = true.
Proof. unfold digit_char, word. destruct (c <? 128); [intros (A & _)|apply digits_words]. lia. Qed.
Lemma digit_no_end c d : dc c d -> ends_format c = false /\ (c =? 10) = false.
Proof. clear digits_words. unfold digit_char, ends_format. destruct (c <? 128) eqn:E; intros H; split; lia. Qed.
Lemma lines_digits cs ds : Forall2 dc cs ds -> forall pre r, lines_match uni_word pre (cs ++ r) = lines_match uni_word (pre ++ cs) r.
Proof.
  induction 1 as [|c d cs ds X F IH]; intros pre r; [cbn [app]; now rewrite app_nil_r|]. cbn [app lines_match]. destruct (digit_no_end _ _ X) as (-> & ->). rewrite IH. now rewrite <- app_assoc.
Qed.
Lemma lines_sign sg ds pre r : (sg = [] \/ ((sg = s2l "+" \/ sg = s2l "-") /\ ds <> (@nil Z))) -> lines_match uni_word pre (sg ++ r) = lines_match uni_word (pre ++ sg) r.
Proof.
  intros [->|([->| ->] & _)]; [cbn [app]; now rewrite app_nil_r|reflexivity|reflexivity].
Qed.
Lemma lines_one pre c : lines_match uni_word pre [c] = None.
Proof. cbn [lines_match sep_match]. destruct (c =? 10), (ends_format c); reflexivity. Qed.
Lemma at_end_letter l r : at_end (letter l :: r) = false.
Proof. destruct l, r; reflexivity. Qed.
Lemma letter_word l : word uni_word (letter l) = true.
Proof. destruct l; reflexivity. Qed.
Lemma lang_not46 c r : c <> 46 -> at_end (c :: r) = false -> lang_match uni_word (c :: r) = None.
Proof.
  intros N A. unfold lang_match. rewrite A. destruct c as [|q|q]; try reflexivity. do 6 (destruct q as [q|q|]; try reflexivity). now destruct N.
Qed.
(** Without line numbers, no format string of a dump is one of a text. *)
Lemma tail_shape s sg ds l p : hex_shape uni_digit s sg ds l p -> tail_match uni_word s = None \/ exists g, tail_match uni_word s = Some ([letter l], g).
Proof.
  intros (cs & -> & F & SG & P). set (tl := letter l :: match p with Some c => [c] | None => [] end).
  assert (NL : forall c d t, dc c d -> lang_match uni_word (c :: t ++ tl) = None).
  { intros c d t X. apply lang_not46; [unfold digit_char in X; destruct (c <? 128) eqn:E; lia|]. cbn [at_end]. destruct t; reflexivity. }
  assert (LL : lang_match uni_word tl = None) by (apply lang_not46; [destruct l; discriminate|apply at_end_letter]).
  destruct SG as [->|([->| ->] & NE)].
  - cbn [app]. destruct F as [|c d cs ds X F].
    + cbn [app]. unfold tail_match, tl. rewrite letter_word. cbn beta iota.
 set (x := match p with Some c => [c] | None => [] end). destruct (lang_match uni_word x) as [g|]; [right; now exists g|left; reflexivity].
    + left. cbn [app tail_match]. rewrite (digit_word _ _ X). destruct F as [|c' d' cs ds X' F]; cbn [app]; [now rewrite LL|]. now rewrite (NL c' d' cs X').
  - left. destruct F as [|c d cs ds X F]; [contradiction|]. reflexivity.
  - left. destruct F as [|c d cs ds X F]; [contradiction|]. reflexivity.
Qed.
Lemma lines_shape s sg ds l p : hex_shape uni_digit s sg ds l p ->
  lines_match uni_word [] s = match p with
                              | Some c => if l && negb (word uni_word c) then Some (removelast s, [c], ([], None)) else None
                              | None => None
                              end.
Proof.
  intros (cs & -> & F & SG & P). set (tl := match p with Some c => [c] | None => [] end). rewrite (lines_sign sg ds) by exact SG. rewrite (lines_digits _ _ F). cbn [app].
  assert (LT : forall pre, lines_match uni_word pre tl = None) by (intros pre; unfold tl; destruct p; [apply lines_one|reflexivity]).
  cbn [lines_match]. rewrite LT. destruct l; cbn [letter Z.eqb Pos.eqb andb]; [|change (ends_format 88) with false; destruct p; reflexivity].
  change (ends_format 120) with true. cbn beta iota. unfold tl. destruct p as [c|]; [|reflexivity]. cbn [sep_match tail_match]. destruct (word uni_word c); cbn [negb]; [reflexivity|].
  do 3 f_equal. change [120; c] with ([120] ++ [c]). rewrite !app_assoc. now rewrite removelast_last.
Qed.
End Tokens.

(** ** Numbered lines *)
Lemma split_no c s : Forall (fun l => ~ In c l) (split_on c s).
Proof.
  induction s as [|x s IH]; [repeat constructor; intros []|]. cbn [split_on]. destruct (x =? c) eqn:E; [constructor; [intros []|exact IH]|].
  destruct (split_on c s) as [|l r]; [repeat constructor; intros [H|[]]; lia|]. inversion IH as [|? ? N R]; subst. constructor; [intros [H|H]; [lia|now apply N]|exact R].
Qed.
Lemma split_ne c s : split_on c s <> [].
Proof. destruct s; cbn [split_on]; [discriminate|]. destruct (z =? c); [discriminate|]. destruct (split_on c s); discriminate. Qed.
Lemma joined_split s : joined [10] (split_on 10 s) = s.
Proof.
  induction s as [|x s IH]; [reflexivity|]. cbn [split_on]. pose proof (split_ne 10 s) as NE. destruct (x =? 10) eqn:E.
  - destruct (split_on 10 s) as [|l r]; [contradiction|]. rewrite joined_cons, IH. apply Z.eqb_eq in E as ->. reflexivity.
  - destruct (split_on 10 s) as [|l r]; [contradiction|]. destruct r as [|m r]; [cbn [joined] in IH |- *; now rewrite IH|]. rewrite joined_cons in IH |- *. cbn [app] in IH |- *. now rewrite IH.
Qed.
Lemma lines_joined ls : lines ls = joined [10] ls.
Proof. induction ls as [|l r IH]; [reflexivity|]. destruct r; [reflexivity|]. rewrite joined_cons, <- IH. reflexivity. Qed.
Lemma split_lines ls : ls <> [] -> Forall (fun l => ~ In 10 l) ls -> split_on 10 (lines ls) = ls.
Proof.
  induction ls as [|l r IH]; intros NE F; [contradiction|]. inversion F as [|? ? N R]; subst. destruct r as [|m r]; [now apply L_Real.split_on_none|].
  change (lines (l :: m :: r)) with (l ++ 10 :: lines (m :: r)). rewrite L_Real.split_on_app by exact N. now rewrite IH by (discriminate || assumption).
Qed.
Lemma app_split_eq (a b : str) : forall r1 r2, ~ In 10 a -> ~ In 10 b -> (r1 = [] \/ exists t, r1 = 10 :: t) -> (r2 = [] \/ exists t, r2 = 10 :: t) -> a ++ r1 = b ++ r2 -> a = b /\ r1 = r2.
Proof.
  revert b. induction a as [|x a IH]; intros [|y b] r1 r2 NA NB R1 R2 E; cbn [app] in E.
  - now split.
  - exfalso. destruct R1 as [->|(t & ->)]; [discriminate E|]. injection E as E _. apply NB. now left.
  - exfalso. destruct R2 as [->|(t & ->)]; [discriminate E|]. injection E as E _. apply NA. now left.
  - injection E as -> E. apply IH in E as (-> & ->); auto; [intros H; apply NA; now right|intros H; apply NB; now right].
Qed.
Lemma number_lines_inj int_format fmt sep l1 : forall l2 i t1 t2, l1 <> [] -> l2 <> [] -> Forall (fun l => ~ In 10 l) l1 -> Forall (fun l => ~ In 10 l) l2 ->
  number_lines int_format fmt sep i l1 = Ok t1 -> number_lines int_format fmt sep i l2 = Ok t2 -> joined [10] t1 = joined [10] t2 -> l1 = l2.
Proof.
  induction l1 as [|a l1 IH]; intros l2 i t1 t2 N1 N2 F1 F2 E1 E2 J; [contradiction|]. destruct l2 as [|b l2]; [contradiction|]. inversion F1 as [|? ? A1 F1']; inversion F2 as [|? ? A2 F2']; subst.
  cbn [number_lines] in E1, E2. apply rbind_ok in E1 as (x & X & E1). rewrite X in E2. cbn [rbind] in E2. apply rbind_ok in E1 as (u1 & U1 & E1). apply rbind_ok in E2 as (u2 & U2 & E2). injection E1 as <-. injection E2 as <-.
  rewrite !joined_rest, <- !app_assoc in J. apply app_inv_head, app_inv_head in J.
  assert (T : forall us, concat (map (cons 10) us) = [] \/ exists t, concat (map (cons 10) us) = 10 :: t) by (intros [|u us]; [now left|right; eexists; reflexivity]).
  apply app_split_eq in J as (-> & J); auto. f_equal. destruct l1 as [|c l1], l2 as [|c' l2].
  - reflexivity.
  - exfalso. injection U1 as <-. cbn [number_lines] in U2. apply rbind_ok in U2 as (y & _ & U2). apply rbind_ok in U2 as (u & _ & U2). injection U2 as <-. discriminate J.
  - exfalso. injection U2 as <-. cbn [number_lines] in U1. apply rbind_ok in U1 as (y & _ & U1). apply rbind_ok in U1 as (u & _ & U1). injection U1 as <-. discriminate J.
  - apply (IH _ (i + 1) u1 u2); auto; try discriminate. assert (NE : u1 <> [] /\ u2 <> []).
    { cbn [number_lines] in U1, U2. apply rbind_ok in U1 as (y & _ & U1). apply rbind_ok in U1 as (u & _ & U1). apply rbind_ok in U2 as (y' & _ & U2). apply rbind_ok in U2 as (u' & _ & U2). injection U1 as <-. injection U2 as <-. split; discriminate. }
    destruct u1 as [|v u1], u2 as [|v' u2]; [easy..|]. rewrite !joined_rest. cbn [map concat app] in J. now injection J.
Qed.
Lemma number_lines_label int_format fmt sep label ls : forall i, (forall j, i <= j < i + zlen ls -> int_format j fmt = Ok (label j)) ->
  number_lines int_format fmt sep i ls = Ok (labelled label sep i ls).
Proof.
  induction ls as [|l r IH]; intros i H; [reflexivity|]. cbn [number_lines labelled]. pose proof (zlen_nonneg r) as P. rewrite H by (rewrite zlen_cons; lia). cbn [rbind].
  rewrite IH; [reflexivity|]. intros j J. apply H. rewrite zlen_cons. lia.
Qed.
