(** Lemmas about lists and matrices. *)
From Verif Require Import L_Base M_Data M_Flags M_Models M_Class M_Var M_Real M_Complex M_List S_Data L_Data S_Var L_Var S_List.

Lemma chunks_fuel_concat {A} n (xs : list (list A)) tail fuel : (0 < n)%nat -> Forall (fun x => length x = n) xs ->
  (length tail < n)%nat -> (length (concat xs ++ tail) <= fuel)%nat -> chunks_fuel fuel n (concat xs ++ tail) = xs.
Proof.
  intros Hn H Ht. revert fuel. induction H as [|x xs Hx H IH]; intros fuel F.
  - cbn [concat app] in *. destruct fuel; [reflexivity|]. cbn [chunks_fuel].
    replace (Nat.ltb (length tail) n) with true by (symmetry; now apply Nat.ltb_lt). now rewrite orb_true_r.
  - cbn [concat] in *. rewrite <- app_assoc in *. rewrite app_length in F. destruct fuel; [lia|]. cbn [chunks_fuel].
    replace (Nat.eqb n 0) with false by (symmetry; apply Nat.eqb_neq; lia).
    replace (Nat.ltb _ n) with false by (symmetry; apply Nat.ltb_ge; rewrite app_length; lia). cbn [orb].
    rewrite firstn_app_exact, skipn_app_exact by auto. f_equal. apply IH. lia.
Qed.
Lemma chunks_concat {A} n (xs : list (list A)) : (0 < n)%nat -> Forall (fun x => length x = n) xs ->
  chunks n (concat xs) = xs.
Proof.
  intros Hn H. unfold chunks. rewrite <- (app_nil_r (concat xs)). now apply chunks_fuel_concat.
Qed.
(** Whatever the input, every group has the full size, and the groups are the
    input up to fewer than [n] last bytes. *)
Lemma chunks_spec {A} n (l : list A) : (0 < n)%nat ->
  exists tail, l = concat (chunks n l) ++ tail /\ (length tail < n)%nat /\ Forall (fun x => length x = n) (chunks n l).
Proof.
  intros Hn. unfold chunks. assert (G : forall fuel l, (length l <= fuel)%nat ->
    exists tail, l = concat (chunks_fuel fuel n l) ++ tail /\ (length tail < n)%nat /\ Forall (fun x : list A => length x = n) (chunks_fuel fuel n l)).
  { clear l. induction fuel as [|f IH]; intros l H.
    - destruct l; [|cbn in H; lia]. exists []. cbn. auto.
    - cbn [chunks_fuel]. replace (Nat.eqb n 0) with false by (symmetry; apply Nat.eqb_neq; lia). cbn [orb].
      destruct (Nat.ltb (length l) n) eqn:E.
      + exists l. apply Nat.ltb_lt in E. cbn. auto.
      + apply Nat.ltb_ge in E. destruct (IH (skipn n l)) as (tail & Q & L & F); [rewrite skipn_length; lia|].
        exists tail. split; [|split; auto].
        * cbn [concat]. rewrite <- app_assoc, <- Q. symmetry. apply firstn_skipn.
        * constructor; auto. apply firstn_length_le; lia. }
  apply G. lia.
Qed.

Lemma omapM_ok {A B} (f : A -> out B) (P : A -> B -> Prop) l :
  (forall a, In a l -> exists w b, f a = (w, Ok b) /\ P a b /\ w = []) ->
  exists bs, omapM f l = oret bs /\ Forall2 P l bs.
Proof.
  induction l as [|a l IH]; intros H; [exists []; split; [reflexivity|constructor]|].
  destruct (H a) as (w & b & E & Q & ->); [now left|]. destruct IH as (bs & F & R); [intros; apply H; now right|].
  exists (b :: bs). split; [|now constructor]. cbn [omapM]. rewrite E, F. reflexivity.
Qed.

Lemma py_index_ok {A} (l : list A) i : 0 <= i < Z.of_nat (length l) -> exists a, py_index l i = Ok a.
Proof.
  intros H. unfold py_index. replace (i <? 0) with false by lia. cbv zeta. replace (i <? 0) with false by lia.
  destruct (nth_error l (Z.to_nat i)) eqn:E; [eauto|]. apply nth_error_None in E. lia.
Qed.

Ltac vm_out := match goal with |- exists e, ?m = oret e /\ _ =>
  let v := eval vm_compute in m in
  assert (X : m = v) by (vm_cast_no_check (eq_refl v)); rewrite X; clear X; eexists; split; [reflexivity|] end.

Section Names.
Variable ns : cls -> str -> out bytes.
Variable ps : bytes -> option bool.
Hypothesis NS : names_ok ns.

Lemma name_fit c : In c [KRealEntry; KComplexEntry] -> exists nm, section_set_raw (Some 8%nat) (ns c (s2l "A")) = oret nm /\ length nm = 8%nat.
Proof.
  intros H. destruct (NS c H) as (nm & E & L). rewrite E. unfold section_set_raw. rewrite obind_oret.
  unfold fit_section. replace (Nat.ltb 8 (length nm)) with false by (symmetry; apply Nat.ltb_ge; lia).
  exists (ljust 8 nm). split; [reflexivity|]. now apply ljust_length.
Qed.

Lemma elem_new_real c d : real_payload c d ->
  exists e, elem_new ns ps KRealEntry true d = oret e /\ e_cls e = c /\ calc_data e = d /\ meta_length e = 13.
Proof.
  intros (L & W & I). destruct (name_fit KRealEntry) as (nm & N & LN); [now left|].
  unfold elem_new, entry_new. change (section_set_raw (Some 8%nat) (ns KRealEntry (s2l "A"))) with (section_set_raw (Some 8%nat) (ns KRealEntry (s2l "A"))).
  rewrite N.
  change (meta_convert KRealEntry None 13) with (oret [13; 0]). rewrite obind_oret.
  change (section_set_raw (Some 1%nat) (bits_set 0 8 (match type_id_of KRealEntry with Some t => t | None => 255 end) None)) with (oret [255]).
  rewrite !obind_oret. change (set_archived (Entry KRealEntry [13; 0] [255] nm [] [] (Buf true [])) false)
    with (oret (Entry KRealEntry [13; 0] [255] nm [] [0] (Buf true []))). rewrite obind_oret.
  change (owarn_if (meta_length _ =? 11) WFlashless) with (oret tt). rewrite obind_oret.
  change (section_set_raw (Some 1%nat) (bits_set 0 8 0 None)) with (oret [0]). rewrite obind_oret.
  change (clear _) with (oret (Entry KRealEntry [13; 0] [255] nm [0] [0] (Buf true (zeros 9)))). rewrite obind_oret.
  do 9 (destruct d as [|? d]; [discriminate L|]). destruct d; [|discriminate L]. cbn [nth] in I.
  set (dd := [z; z0; z1; z2; z3; z4; z5; z6; z7]) in *.
  change (set_data elem_version _ dd) with (oret (Entry KRealEntry [13; 0] [255] nm [0] [0] (Buf true dd))).
  rewrite obind_oret. unfold coerce. cbn [e_cls e_data].
  pose proof (get_bits_at_nth 0 (Buf true dd) z eq_refl) as G. change (Z.of_nat 0) with 0 in G. rewrite G. unfold olift. rewrite obind_ret_l.
  destruct I as [I|[I|[I|[I|[I|[I|[]]]]]]]; injection I as I1 I2; rewrite <- I1, <- I2;
    (vm_out; split; [reflexivity|]; split; reflexivity).
Qed.

Lemma complex_version_cases e (d : bytes) : issubclass (e_cls e) KComplexEntry = true -> length d = 18%nat ->
  elem_version e (Some d) = oret 0 \/ elem_version e (Some d) = oret 11 \/ elem_version e (Some d) = oret 16.
Proof.
  intros K L. unfold elem_version. rewrite K. unfold complex_version.
  destruct d as [|x r]; [discriminate L|]. cbv zeta.
  destruct (py_index_ok (x :: r) 0) as [a ->]; [lia|]. destruct (py_index_ok (x :: r) 9) as [b ->]; [lia|]. cbn [rbind].
  destruct (_ =? 12); [left; reflexivity|]. destruct (_ =? 27); [right; left|right; right]; reflexivity.
Qed.
Lemma complex_version_cases' e : issubclass (e_cls e) KComplexEntry = true -> length (data e) = 18%nat ->
  elem_version e None = oret 0 \/ elem_version e None = oret 11 \/ elem_version e None = oret 16.
Proof.
  intros K L. pose proof (complex_version_cases e (data e) K L) as H. unfold elem_version in *. rewrite K in *.
  unfold complex_version in *. destruct (data e); [discriminate L|]. exact H.
Qed.

Lemma elem_new_complex c d : complex_payload c d ->
  exists e, elem_new ns ps KComplexEntry true d = oret e /\ e_cls e = c /\ calc_data e = d /\ meta_length e = 13.
Proof.
  intros (L & W & I). destruct (name_fit KComplexEntry) as (nm & N & LN); [right; now left|].
  unfold elem_new, entry_new. rewrite N.
  change (meta_convert KComplexEntry None 13) with (oret [13; 0]). rewrite obind_oret.
  change (section_set_raw (Some 1%nat) (bits_set 0 8 (match type_id_of KComplexEntry with Some t => t | None => 255 end) None)) with (oret [255]).
  rewrite !obind_oret. change (set_archived (Entry KComplexEntry [13; 0] [255] nm [] [] (Buf true [])) false)
    with (oret (Entry KComplexEntry [13; 0] [255] nm [] [0] (Buf true []))). rewrite obind_oret.
  change (owarn_if (meta_length _ =? 11) WFlashless) with (oret tt). rewrite obind_oret.
  change (section_set_raw (Some 1%nat) (bits_set 0 8 0 None)) with (oret [0]). rewrite obind_oret.
  change (clear _) with (oret (Entry KComplexEntry [13; 0] [255] nm [0] [0] (Buf true (12 :: zeros 8 ++ 12 :: zeros 8)))). rewrite obind_oret.
  set (e0 := Entry KComplexEntry [13; 0] [255] nm [0] [0] (Buf true (12 :: zeros 8 ++ 12 :: zeros 8))).
  assert (SD : exists v, set_data elem_version e0 d = oret (Entry KComplexEntry [13; 0] [255] nm v [0] (Buf true d)) /\ In v [[0]; [11]; [16]]).
  { unfold set_data. change (data_view (e_cls e0)) with (View None None, DData). cbv iota beta. rewrite obind_oret.
    assert (VS : forall x, view_set None (View None None) (oret d) (e_data x) = if b_mut (e_data x) then oret (Buf true d) else oerr TypeError).
    { intros x. unfold view_set, view_length, section_set_raw. cbn [v_start v_stop option_map]. rewrite obind_oret.
      change (option_map Z.to_nat (if (0 <=? 0) && true then None else Some (Z.max (0 - 0) 0))) with (@None nat).
      change (fit_section None d) with (oret d).
      rewrite obind_oret. now rewrite py_slice_set_all. }
    destruct (complex_version_cases e0 d eq_refl L) as [E|[E|E]]; rewrite E, !obind_oret.
    - exists [0]. split; [|now left]. change (set_version e0 0) with (oret e0). rewrite obind_oret, VS. reflexivity.
    - exists [11]. split; [|right; now left]. change (set_version e0 11) with (oret (with_version e0 [11])). rewrite obind_oret, VS. reflexivity.
    - exists [16]. split; [|right; right; now left]. change (set_version e0 16) with (oret (with_version e0 [16])). rewrite obind_oret, VS. reflexivity. }
  destruct SD as (v & SD & Iv). assert (D : exists x r, d = x :: r) by (destruct d; [discriminate L|eauto]). destruct D as (x0 & r0 & D).
  rewrite D. rewrite <- D. rewrite SD. rewrite obind_oret. clear SD.
  assert (N9 : nth_error d 9 = Some (nth 9 d 0)) by (apply nth_error_nth'; lia).
  pose proof (get_bits_at_nth 9 (Buf true d) (nth 9 d 0) N9) as G. change (Z.of_nat 9) with 9 in G.
  assert (C : coerce ps (Entry KComplexEntry [13; 0] [255] nm v [0] (Buf true d)) =
              oret (Entry c [13; 0] [nth 9 d 0 mod 64] nm v [0] (Buf true d))).
  { unfold coerce, coerce_own. cbn [e_cls]. change (issubclass KComplexEntry KProgram) with false. change (cls_eqb KComplexEntry KGraphedEquation) with false.
    change (issubclass KComplexEntry KList) with false. change (issubclass KComplexEntry KComplexEntry) with true. cbv iota.
    unfold coerce_complex. cbn [e_data]. rewrite G. unfold olift. rewrite obind_ret_l.
    destruct I as [I|[I|[I|[I|[I|[]]]]]]; injection I as I1 I2; rewrite <- I1, <- I2; reflexivity. }
  rewrite C, obind_oret.
  assert (K : issubclass c KComplexEntry = true /\ data_view c = (View None None, DData)).
  { destruct I as [I|[I|[I|[I|[I|[]]]]]]; injection I as I1 <-; split; reflexivity. }
  set (e1 := Entry c [13; 0] [nth 9 d 0 mod 64] nm v [0] (Buf true d)).
  assert (LD : length (data e1) = 18%nat).
  { unfold data, e1. cbn [e_cls e_data]. rewrite (proj2 K). unfold view_get. cbn [fst v_start v_stop b_data]. now rewrite py_slice_all. }
  assert (SV : forall x, In x [0; 11; 16] -> set_version e1 x = oret (with_version e1 [x])).
  { intros x [<-|[<-|[<-|[]]]]; unfold set_version, e1; cbn [e_version]; destruct Iv as [<-|[<-|[<-|[]]]]; reflexivity. }
  destruct (complex_version_cases' e1 (proj1 K) LD) as [E|[E|E]]; rewrite E, obind_oret, SV by (cbn; auto);
    (eexists; split; [reflexivity|]; split; [reflexivity|]; split; reflexivity).
Qed.

Lemma elem_new_fresh k : In k [KRealEntry; KComplexEntry] -> exists e, elem_new ns ps k true [] = oret e /\ e_cls e = k.
Proof.
  intros H. destruct (name_fit k H) as (nm & N & LN). unfold elem_new, entry_new.
  destruct H as [<-|[<-|[]]]; cbv iota; rewrite N; change (meta_convert _ None 13) with (oret [13; 0]); rewrite obind_oret;
    change (section_set_raw (Some 1%nat) (bits_set 0 8 (match type_id_of _ with Some t => t | None => 255 end) None)) with (oret [255]);
    rewrite !obind_oret; vm_out; reflexivity.
Qed.
Lemma elem_new_payload k c d : payload_for k c d ->
  exists e, elem_new ns ps (elem_cls k) true d = oret e /\ e_cls e = c /\ calc_data e = d.
Proof.
  destruct k; cbn [payload_for]; try tauto; intros H.
  - destruct (elem_new_real c d H) as (e & A & B & C & _). eauto.
  - destruct (elem_new_complex c d H) as (e & A & B & C & _). eauto.
Qed.
End Names.

(** ** load_list and load_matrix in closed form *)
Lemma view_set_prefix v n (D : bytes) : length v = n -> (n <= length D)%nat -> (0 < n)%nat ->
  view_set None (View (Some 0) (Some (Z.of_nat n))) (oret v) (Buf true D) = oret (Buf true (v ++ skipn n D)).
Proof.
  intros L H P. unfold view_set, view_length. cbn [v_start v_stop option_map].
  replace (Z.of_nat n <? 0) with false by lia. rewrite andb_false_r. cbn [option_map].
  replace (Z.to_nat (Z.max (Z.of_nat n - 0) 0)) with n by lia. unfold section_set_raw. rewrite obind_oret. unfold fit_section.
  rewrite L, Nat.ltb_irrefl. rewrite ljust_id by lia.
  rewrite obind_warn_false, obind_oret. cbn [b_mut b_data]. rewrite py_slice_set_nn by (unfold zlen; lia). now rewrite Nat2Z.id.
Qed.
Lemma view_set_rest a v (D : bytes) : 0 <= a <= zlen D ->
  view_set None (View (Some a) None) (oret v) (Buf true D) = oret (Buf true (firstn (Z.to_nat a) D ++ v)).
Proof.
  intros H. unfold view_set, view_length. cbn [v_start v_stop option_map]. replace (0 <=? a) with true by lia. cbn [andb option_map].
  unfold section_set_raw. rewrite obind_oret. cbn [fit_section]. unfold fit_section. rewrite obind_oret. cbn [b_mut b_data].
  now rewrite py_slice_set_from by lia.
Qed.
Lemma integer_set_fit v n : 0 <= v < 256 ^ Z.of_nat n -> integer_set v (Some n) = Ok (le_bytes n v).
Proof.
  intros H. unfold integer_set, to_bytes_le. destruct (fits n v) eqn:E; [reflexivity|]. apply fits_spec in H. congruence.
Qed.
Lemma load_list_ok e D xs : e_data e = Buf true D -> (2 <= length D)%nat -> zlen xs < 65536 ->
  load_list e xs = (if 999 <? zlen xs then [WListLength] else [],
    Ok (with_data e (Buf true (le_bytes 2 (zlen xs) ++ concat (map calc_data xs))))).
Proof.
  intros ED L H. pose proof (zlen_nonneg xs) as P. unfold load_list, set_list_length. rewrite integer_set_fit by (cbn; lia).
  fold (@oret bytes (le_bytes 2 (zlen xs))). change (olift (Ok (le_bytes 2 (zlen xs)))) with (@oret bytes (le_bytes 2 (zlen xs))). rewrite ED.
  rewrite (view_set_prefix _ 2) by (auto using le_bytes_length). rewrite obind_oret. unfold set_list_data. cbn [with_data e_data].
  assert (V : forall v, view_set None (View (Some 2) None) (oret v) (Buf true (le_bytes 2 (zlen xs) ++ skipn 2 D)) = oret (Buf true (le_bytes 2 (zlen xs) ++ v))).
  { intros v. rewrite view_set_rest by (rewrite zlen_app; unfold zlen; rewrite le_bytes_length; lia).
    change (Z.to_nat 2) with 2%nat. now rewrite firstn_app_exact by apply le_bytes_length. }
  unfold owarn_if. destruct (999 <? zlen xs); cbn [obind oret]; rewrite V; reflexivity.
Qed.
Lemma load_list_over e xs : 65536 <= zlen xs -> load_list e xs = ([WListLength], Err OverflowError).
Proof.
  intros H. unfold load_list, set_list_length, owarn_if. replace (999 <? zlen xs) with true by lia.
  replace (integer_set (zlen xs) (Some 2%nat)) with (@Err bytes OverflowError) by (symmetry; apply integer_refuse; cbn; lia). reflexivity.
Qed.
Lemma le_bytes_1 v : 0 <= v < 256 -> le_bytes 1 v = [v].
Proof. intros H. cbn. now rewrite Z.mod_small by lia. Qed.
Lemma load_matrix_ok e a b D m : e_data e = Buf true (a :: b :: D) -> is_byte b ->
  let w := zlen (match m with r :: _ => r | [] => [] end) in let h := zlen m in
  uneven m = false -> w <= 255 -> h <= 255 ->
  load_matrix e m = ((if 99 <? w then [WMatrixSize] else []) ++ (if 400 <? w * b then [WMatrixSize] else []) ++
      (if 99 <? h then [WMatrixSize] else []) ++ (if 400 <? w * h then [WMatrixSize] else []),
    Ok (with_data e (Buf true (w :: h :: concat (map calc_data (concat m)))))).
Proof.
  intros ED Bb w h U Hw Hh. pose proof (zlen_nonneg m) as Ph. fold h in Ph.
  assert (Pw : 0 <= w) by apply zlen_nonneg. unfold load_matrix. rewrite U. fold w h. unfold set_width.
  assert (HE : height e = b).
  { unfold height. rewrite ED. unfold view_get. cbn [v_start v_stop b_data]. rewrite py_slice_nn by (rewrite ?zlen_cons; pose proof (zlen_nonneg D); lia).
    change (b + 0 = b). lia. }
  rewrite HE, integer_set_fit by (cbn; lia). rewrite le_bytes_1 by lia. change (olift (Ok [w])) with (@oret bytes [w]). rewrite ED.
  change (View (Some 0) (Some 1)) with (View (Some 0) (Some (Z.of_nat 1))). rewrite (view_set_prefix [w] 1) by (cbn [length]; auto; lia).
  rewrite obind_oret. cbn [skipn app]. set (e1 := with_data e (Buf true (w :: b :: D))).
  assert (WE : width e1 = w).
  { unfold width, e1, with_data, view_get. cbn [e_data v_start v_stop b_data]. rewrite py_slice_nn by (rewrite ?zlen_cons; pose proof (zlen_nonneg D); lia).
    change (w + 0 = w). lia. }
  assert (S2 : set_height e1 h = ((if 99 <? h then [WMatrixSize] else []) ++ (if 400 <? w * h then [WMatrixSize] else []),
                Ok (with_data e (Buf true (w :: h :: D))))).
  { unfold set_height. rewrite WE, integer_set_fit by (cbn; lia). rewrite le_bytes_1 by lia. change (olift (Ok [h])) with (@oret bytes [h]).
    assert (V : view_set None (View (Some 1) (Some 2)) (@oret bytes [h]) (e_data e1) = oret (Buf true (w :: h :: D))).
    { unfold e1, view_set. change (option_map Z.to_nat (view_length None (View (Some 1) (Some 2)))) with (Some 1%nat).
      change (section_set_raw (Some 1%nat) (oret [h])) with (@oret bytes [h]). rewrite obind_oret. cbn [with_data e_data b_mut b_data v_start v_stop].
      rewrite py_slice_set_nn by (rewrite ?zlen_cons; pose proof (zlen_nonneg D); lia). reflexivity. }
    rewrite V, obind_oret. unfold owarn_if. destruct (99 <? h), (400 <? w * h); reflexivity. }
  rewrite obind_assoc. unfold owarn_if. rewrite obind_assoc.
  assert (V3 : set_list_data (with_data e (Buf true (w :: h :: D))) (concat (map calc_data (concat m))) =
    oret (with_data e (Buf true (w :: h :: concat (map calc_data (concat m)))))).
  { unfold set_list_data. cbn [with_data e_data]. rewrite view_set_rest by (rewrite ?zlen_cons; pose proof (zlen_nonneg D); lia). reflexivity. }
  rewrite ?obind_oret.
  destruct (99 <? w), (400 <? w * b); cbn [obind]; rewrite ?obind_oret; rewrite S2; cbn [obind]; rewrite V3; cbn; rewrite ?app_nil_r; reflexivity.
Qed.
