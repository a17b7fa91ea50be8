(** Lemmas about pictures. *)
From Verif Require Import L_Base M_Data M_Flags M_Models M_Class M_Var M_List M_Pic S_Data L_Data S_Var L_Models L_Var L_List S_Pic.

(** ** Maps with effects *)
Lemma rmapM_map {A B} (f : A -> result B) (g : A -> B) l : (forall x, In x l -> f x = Ok (g x)) -> rmapM f l = Ok (map g l).
Proof.
  induction l as [|a l IH]; intros H; [reflexivity|]. cbn [rmapM map]. rewrite H by (left; reflexivity). cbn [rbind].
  rewrite IH by (intros; apply H; now right). reflexivity.
Qed.
Lemma rmapM_seq {A B} (f : nat -> result B) (g : A -> B) xs s :
  (forall r x, nth_error xs r = Some x -> f (s + r)%nat = Ok (g x)) -> rmapM f (seq s (length xs)) = Ok (map g xs).
Proof.
  revert s. induction xs as [|a xs IH]; intros s H; [reflexivity|]. cbn [rmapM map length seq].
  rewrite <- (Nat.add_0_r s) at 1. rewrite (H 0%nat a eq_refl). cbn [rbind]. rewrite IH; [reflexivity|].
  intros r x E. rewrite <- (H (S r) x E). f_equal. lia.
Qed.
Lemma omapM_map {A B} (f : A -> out B) (g : A -> B) (wf : A -> list warning) l :
  (forall x, In x l -> f x = (wf x, Ok (g x))) -> omapM f l = (concat (map wf l), Ok (map g l)).
Proof.
  induction l as [|a l IH]; intros H; [reflexivity|]. cbn [omapM map concat]. rewrite H by (left; reflexivity). cbn [obind].
  rewrite IH by (intros; apply H; now right). cbn [obind oret]. now rewrite app_nil_r.
Qed.

(** ** Rows *)
Lemma skipn_rows {A} (w r : nat) (rows : list (list A)) : Forall (fun x => length x = w) rows ->
  skipn (w * r) (concat rows) = concat (skipn r rows).
Proof.
  intros F. revert r. induction F as [|x rows L F IH]; intros [|r].
  - now rewrite Nat.mul_0_r. - now rewrite !skipn_nil. - now rewrite Nat.mul_0_r.
  - cbn [concat skipn]. rewrite <- IH, Nat.mul_succ_r, Nat.add_comm. rewrite skipn_app. rewrite (skipn_all2 x) by lia.
    cbn [app]. f_equal. lia.
Qed.
Lemma skipn_twice {A} a b (l : list A) : skipn a (skipn b l) = skipn (a + b) l.
Proof.
  revert l. induction b as [|b IH]; intros l; [now rewrite Nat.add_0_r|]. rewrite Nat.add_succ_r. destruct l; [now rewrite !skipn_nil|]. apply IH.
Qed.
Lemma sub_row {A} (w r c k : nat) (rows : list (list A)) row : Forall (fun x => length x = w) rows ->
  nth_error rows r = Some row -> (c + k <= w)%nat ->
  firstn k (skipn (w * r + c) (concat rows)) = firstn k (skipn c row).
Proof.
  intros F N L. assert (LR : length row = w). { rewrite Forall_forall in F. apply F. eapply nth_error_In; eauto. }
  rewrite Nat.add_comm, <- skipn_twice, skipn_rows by exact F.
  assert (E : exists r', skipn r rows = row :: r').
  { revert N. clear. revert r. induction rows; intros [|r] N; cbn in *; try discriminate; [injection N as <-; eauto|eauto]. }
  destruct E as [r' ->]. cbn [concat]. rewrite skipn_app, firstn_app. rewrite skipn_length.
  replace (k - (length row - c))%nat with 0%nat by lia. cbn [firstn]. now rewrite app_nil_r.
Qed.
Lemma firstn1_skipn {A} (l : list A) c x : nth_error l c = Some x -> firstn 1 (skipn c l) = [x].
Proof. revert c. induction l; intros [|c] H; cbn in *; try discriminate; [now injection H as <-|auto]. Qed.
Lemma rows_exact {A} n h (d : list A) : (0 < n)%nat -> length d = (h * n)%nat ->
  exists rows, d = concat rows /\ length rows = h /\ Forall (fun x => length x = n) rows.
Proof.
  intros Hn L. revert d L. induction h as [|h IH]; intros d L.
  - destruct d; [|discriminate L]. exists []. auto.
  - destruct (IH (skipn n d)) as (rows & E & LR & F). { rewrite skipn_length. lia. }
    exists (firstn n d :: rows). cbn [concat length]. rewrite <- E, firstn_skipn. split; [reflexivity|]. split; [lia|].
    constructor; [rewrite firstn_length; lia|exact F].
Qed.
Lemma concat_length_const {A} n (rows : list (list A)) : Forall (fun x => length x = n) rows -> length (concat rows) = (length rows * n)%nat.
Proof. induction 1 as [|x rows L F IH]; [reflexivity|]. cbn [concat length]. rewrite app_length, IH, L. lia. Qed.

(** ** Assigning [data] *)
Lemma bits_set_silent v (d : bytes) c : d = [c] -> is_byte c -> bits_set 0 8 v (Some d) = ([], Ok [v mod 256]).
Proof.
  intros E0 H. destruct (bits_set_full v d c E0 H) as [ws F]. subst d. destruct (bits_set_spec 0 8 v c) as (w & r & E & _ & S & _); [lia|auto|].
  assert (Q : (w, Ok [r]) = (ws, Ok [v mod 256])) by (etransitivity; [symmetry; exact E|exact F]). injection Q as Qw Qr. subst r ws.
  etransitivity; [exact E|]. rewrite (proj2 S); [reflexivity|]. pose proof (Z.mod_pos_bound v 256). cbn. lia.
Qed.
Lemma set_data_sized_13 gv e v (D : bytes) ver w0 v0 : data_view (e_cls e) = (View (Some 2) None, DSized) -> length_view (e_cls e) = View (Some 0) (Some 2) ->
  e_meta e = le16 13 -> e_version e = [v0] -> is_byte v0 -> e_data e = Buf true D -> (2 <= length D)%nat -> zlen v < 65536 ->
  (forall e', e_cls e' = e_cls e -> gv e' (Some v) = (w0, Ok ver)) -> is_byte ver ->
  set_data gv e v = (w0, Ok (with_data (with_version e [ver]) (Buf true (le16 (zlen v) ++ v)))).
Proof.
  intros DV LV M V0 B0 ED L2 L GV BV. pose proof (zlen_nonneg v) as P. unfold set_data. rewrite DV. unfold set_length_field. rewrite LV, ED.
  rewrite integer_set_fit by (cbn; lia). change (olift (Ok (le_bytes 2 (zlen v)))) with (@oret bytes (le_bytes 2 (zlen v))).
  change (View (Some 0) (Some 2)) with (View (Some 0) (Some (Z.of_nat 2))).
  rewrite (view_set_prefix _ 2) by (first [apply le_bytes_length | lia]).
  rewrite !obind_oret. rewrite <- le16_le_bytes by lia.
  rewrite GV by reflexivity. cbn [obind]. unfold set_version.
  assert (ML : (meta_length (with_data e (Buf true (le16 (zlen v) ++ skipn 2 D))) =? 11) = false) by (unfold meta_length, with_data; cbn [e_meta]; rewrite M; reflexivity).
  rewrite ML. unfold with_data at 1. cbn [e_version]. pose proof (bits_set_silent ver (e_version e) v0 V0 B0) as BS.
  unfold section_set_raw at 1. rewrite BS, Z.mod_small by exact BV.
  cbn [obind owarn_if oret]. change (fit_section (Some 1%nat) [ver]) with (@oret bytes [ver]). cbn [obind oret].
  unfold with_version, with_data. cbn [e_cls e_meta e_type e_name e_version e_archived e_data].
  rewrite view_set_rest by (rewrite zlen_app; change (zlen (le16 (zlen v))) with 2; pose proof (zlen_nonneg (skipn 2 D)); lia).
  cbn [obind oret]. rewrite ?app_nil_r. reflexivity.
Qed.
Lemma set_data_image_13 gv e v (D : bytes) m r ver w0 v0 : e_cls e = KImage ->
  e_meta e = le16 13 -> e_version e = [v0] -> is_byte v0 -> e_data e = Buf true D -> skipn 2 D = m :: r -> zlen v < 65536 ->
  (forall e', e_cls e' = e_cls e -> gv e' (Some v) = (w0, Ok ver)) -> is_byte ver ->
  set_data gv e v = (w0, Ok (with_data (with_version e [ver]) (Buf true (le16 (zlen v) ++ m :: v)))).
Proof.
  intros C M V0 B0 ED SK L GV BV. pose proof (zlen_nonneg v) as P.
  assert (L3 : (3 <= length D)%nat). { pose proof (skipn_length 2 D) as X. rewrite SK in X. cbn in X. lia. }
  unfold set_data. rewrite C. cbn [data_view]. unfold set_length_field. rewrite C. cbn [length_view]. rewrite ED.
  rewrite integer_set_fit by (cbn; lia). change (olift (Ok (le_bytes 2 (zlen v)))) with (@oret bytes (le_bytes 2 (zlen v))).
  change (View (Some 0) (Some 2)) with (View (Some 0) (Some (Z.of_nat 2))).
  rewrite (view_set_prefix _ 2) by (first [apply le_bytes_length | lia]).
  rewrite !obind_oret, SK. rewrite <- le16_le_bytes by lia.
  rewrite GV by reflexivity. cbn [obind]. unfold set_version.
  assert (ML : (meta_length (with_data e (Buf true (le16 (zlen v) ++ m :: r))) =? 11) = false) by (unfold meta_length, with_data; cbn [e_meta]; rewrite M; reflexivity).
  rewrite ML. unfold with_data at 1. cbn [e_version]. pose proof (bits_set_silent ver (e_version e) v0 V0 B0) as BS.
  unfold section_set_raw at 1. rewrite BS, Z.mod_small by exact BV.
  cbn [obind owarn_if oret]. change (fit_section (Some 1%nat) [ver]) with (@oret bytes [ver]). cbn [obind oret].
  unfold with_version, with_data. cbn [e_cls e_meta e_type e_name e_version e_archived e_data].
  rewrite view_set_rest by (rewrite zlen_app, zlen_cons; change (zlen (le16 (zlen v))) with 2; pose proof (zlen_nonneg r); lia).
  cbn [obind oret]. rewrite ?app_nil_r. reflexivity.
Qed.

(** ** Monochrome *)
Definition dec1 (b : Z) : list Z := map (fun bit => 255 * (1 - bit)) (bits8 b).
Definition enc1 (v : list Z) : Z := fold_left (fun acc bit => 2 * acc + (if bit =? 0 then 1 else 0)) v 0.
Definition norm1 (p : Z) : Z := if p =? 0 then 0 else 255.
Lemma list8_inv {A} (l : list A) : length l = 8%nat -> exists a b c d e f g h, l = [a; b; c; d; e; f; g; h].
Proof. intros H. do 8 (destruct l as [|? l]; [discriminate H|]). destruct l; [|discriminate H]. repeat eexists. Qed.
Lemma enc1_byte v : length v = 8%nat -> is_byte (enc1 v) /\ l1_set v = Ok [enc1 v].
Proof.
  intros H. destruct (list8_inv v H) as (a & b & c & d & e & f & g & h & ->).
  assert (B : is_byte (enc1 [a; b; c; d; e; f; g; h])).
  { unfold enc1, is_byte. cbn [fold_left]. destruct (a =? 0), (b =? 0), (c =? 0), (d =? 0), (e =? 0), (f =? 0), (g =? 0), (h =? 0); lia. }
  split; [exact B|]. unfold l1_set. fold (enc1 [a; b; c; d; e; f; g; h]). apply bytes_of_ok. repeat constructor; apply B.
Qed.
Lemma dec_enc1 v : length v = 8%nat -> dec1 (enc1 v) = map norm1 v.
Proof.
  intros H. destruct (list8_inv v H) as (a & b & c & d & e & f & g & h & ->). unfold enc1, norm1. cbn [fold_left map].
  destruct (a =? 0), (b =? 0), (c =? 0), (d =? 0), (e =? 0), (f =? 0), (g =? 0), (h =? 0); vm_compute; reflexivity.
Qed.
Lemma enc_dec1 b : is_byte b -> enc1 (dec1 b) = b.
Proof.
  intros H. assert (A : forallb (fun n => enc1 (dec1 n) =? n) (map Z.of_nat (seq 0 256)) = true) by (vm_compute; reflexivity).
  rewrite forallb_forall in A. apply Z.eqb_eq, A. apply in_map_iff. exists (Z.to_nat b). unfold is_byte in H. split; [lia|]. apply in_seq. lia.
Qed.
Lemma groups8_concat gs fuel : Forall (fun g => length g = 8%nat) gs -> (length (concat gs) <= fuel)%nat -> groups8 fuel (concat gs) = Ok gs.
Proof.
  intros F. revert fuel. induction F as [|g gs L F IH]; intros fuel H; [destruct fuel; reflexivity|].
  cbn [concat] in *. destruct g as [|x g]; [discriminate L|]. set (g1 := x :: g) in *.
  assert (E : forall T, groups8 fuel ((x :: g) ++ T) = match fuel with O => Err ValueError | S f => if Nat.ltb (length ((x :: g) ++ T)) 8 then Err ValueError else try r := groups8 f (skipn 8 ((x :: g) ++ T)) in Ok (firstn 8 ((x :: g) ++ T) :: r) end)
    by (intros T; destruct fuel; reflexivity).
  unfold g1 at 1. rewrite E. fold g1. rewrite app_length in H. destruct fuel as [|fuel]; [lia|].
  rewrite app_length. replace (Nat.ltb (length g1 + length (concat gs)) 8) with false by (symmetry; apply Nat.ltb_ge; lia).
  rewrite skipn_app_exact, firstn_app_exact by auto. rewrite IH by lia. reflexivity.
Qed.
Lemma groups8_bad fuel row : (length row mod 8 <> 0)%nat -> groups8 fuel row = Err ValueError.
Proof.
  revert row. induction fuel as [|fuel IH]; intros row H; (destruct row as [|x r] eqn:E; [now cbn in H|]); [reflexivity|].
  rewrite <- E in *. assert (G : groups8 (S fuel) row = if Nat.ltb (length row) 8 then Err ValueError else try r := groups8 fuel (skipn 8 row) in Ok (firstn 8 row :: r)) by (rewrite E; reflexivity).
  rewrite G. destruct (Nat.ltb (length row) 8) eqn:L; [reflexivity|]. apply Nat.ltb_ge in L.
  rewrite IH; [reflexivity|]. rewrite skipn_length. intros X. apply H.
  replace (length row) with ((length row - 8) + 1 * 8)%nat by lia. now rewrite Nat.mod_add by lia.
Qed.

Lemma mono_array_rows rows : length rows = 63%nat -> Forall (fun x => length x = 12%nat) rows ->
  mono_array (concat rows) = Ok (map (fun row => concat (map dec1 row)) rows).
Proof.
  intros L F. unfold mono_array. rewrite <- L. apply rmapM_seq. intros r row N. cbn [Nat.add].
  assert (LR : length row = 12%nat). { rewrite Forall_forall in F. apply F. eapply nth_error_In; eauto. }
  replace (seq 0 12) with (seq 0 (length row)) by now rewrite LR. erewrite (rmapM_seq _ dec1 row); [reflexivity|]. intros c x NX. cbn [Nat.add].
  assert (c < 12)%nat. { rewrite <- LR. apply nth_error_Some. congruence. }
  rewrite (sub_row 12 r c 1 rows row F N) by lia. rewrite (firstn1_skipn row c x NX). reflexivity.
Qed.
Lemma mono_bytes_rows rows : Forall wf_bytes rows -> mono_bytes (map (fun row => concat (map dec1 row)) rows) = Ok (concat rows).
Proof.
  intros W. unfold mono_bytes. assert (E : rmapM (fun row => try gs := groups8 (length row) row in try bs := rmapM l1_set gs in Ok (concat bs)) (map (fun row => concat (map dec1 row)) rows) = Ok rows).
  { induction W as [|row rows Wr W IH]; [reflexivity|]. cbn [map rmapM].
    assert (G : groups8 (length (concat (map dec1 row))) (concat (map dec1 row)) = Ok (map dec1 row)).
    { apply groups8_concat; [|lia]. apply Forall_forall. intros g H. apply in_map_iff in H as (b & <- & _). reflexivity. }
    rewrite G. cbn [rbind].
    assert (R : rmapM l1_set (map dec1 row) = Ok (map (fun b => [b]) row)).
    { clear - Wr. induction Wr as [|b row B Wr IH]; [reflexivity|]. cbn [map rmapM]. destruct (enc1_byte (dec1 b) eq_refl) as [_ ->].
      rewrite enc_dec1 by exact B. cbn [rbind]. rewrite IH. reflexivity. }
    rewrite R. cbn [rbind]. rewrite IH. cbn [rbind]. do 2 f_equal. clear. induction row; [reflexivity|]. cbn. now rewrite IHrow. }
  rewrite E. reflexivity.
Qed.
Lemma mono_bytes_ok h w arr : grid h (8 * w) arr ->
  exists rows, mono_bytes arr = Ok (concat rows) /\ length rows = h /\ Forall (fun x => length x = w) rows /\ Forall wf_bytes rows /\
    map (fun row => concat (map dec1 row)) rows = map (map norm1) arr.
Proof.
  intros [L F]. unfold mono_bytes. subst h.
  assert (G : exists rows, rmapM (fun row => try gs := groups8 (length row) row in try bs := rmapM l1_set gs in Ok (concat bs)) arr = Ok rows /\
    length rows = length arr /\ Forall (fun x => length x = w) rows /\ Forall wf_bytes rows /\ map (fun row => concat (map dec1 row)) rows = map (map norm1) arr).
  { induction F as [|row arr LR F IH]; [exists []; auto|]. destruct IH as (rows & E & LL & FW & W & D).
    destruct (rows_exact 8 w row) as (gs & EG & LG & FG); [lia|lia|].
    exists (map enc1 gs :: rows). cbn [rmapM map length]. rewrite EG at 1 2. rewrite groups8_concat by auto. cbn [rbind].
    assert (R : rmapM l1_set gs = Ok (map (fun g => [enc1 g]) gs)). { apply rmapM_map. intros g Hg. rewrite Forall_forall in FG. now destruct (enc1_byte g (FG g Hg)). }
    rewrite R. cbn [rbind]. rewrite E. cbn [rbind].
    assert (CE : concat (map (fun g => [enc1 g]) gs) = map enc1 gs) by (clear; induction gs; cbn; congruence).
    rewrite CE. split; [reflexivity|]. split; [lia|]. split; [constructor; [now rewrite map_length|exact FW]|]. split.
    - constructor; [|exact W]. apply Forall_forall. intros b Hb. apply in_map_iff in Hb as (g & <- & Hg). rewrite Forall_forall in FG. now destruct (enc1_byte g (FG g Hg)).
    - rewrite D. f_equal. rewrite EG, concat_map, map_map. f_equal. apply map_ext_in. intros g Hg. rewrite Forall_forall in FG. now apply dec_enc1, FG. }
  destruct G as (rows & E & R). exists rows. rewrite E. cbn [rbind]. split; [reflexivity|exact R].
Qed.

(** ** Palette *)
Lemma min_key_spec key best l : In (min_key key best l) (best :: l) /\ forall x, In x (best :: l) -> key (min_key key best l) <= key x.
Proof.
  revert best. induction l as [|y l IH]; intros best; cbn [min_key].
  - split; [now left|]. intros x [<- | []]. lia.
  - destruct (key y <? key best) eqn:E.
    + destruct (IH y) as [I M]. split; [now right|]. intros x [<- | H]; [|now apply M]. specialize (M y (or_introl eq_refl)). lia.
    + destruct (IH best) as [I M]. split; [destruct I; [now left|now right; right]|]. intros x [<- | [<- | H]].
      * apply M. now left. * specialize (M best (or_introl eq_refl)). lia. * apply M. now right.
Qed.
Definition near (c : rgb) : rgb := match palette with [] => c | x :: r => min_key (dist c) x r end.
Definition wnear (c : rgb) : list warning := if rgb_eqb (near c) c then [] else [WPalette].
Lemma nearest_eq c : nearest c = (wnear c, Ok (near c)).
Proof. unfold nearest, wnear, near. destruct (rgb_eqb _ c); reflexivity. Qed.
Lemma dist_sq c x : dist c x = sqdist c x.
Proof. destruct c as [[r g] b], x as [[x y] z]. unfold dist, sqdist. cbn [fst snd]. ring. Qed.
Lemma near_spec c : nearest_to c (near c).
Proof.
  unfold near. destruct (min_key_spec (dist c) (hd c palette) (tl palette)) as [I M]. split; [exact I|].
  intros x H. rewrite <- !dist_sq. now apply M.
Qed.
Lemma rgb_eqb_spec a b : rgb_eqb a b = true <-> a = b.
Proof.
  destruct a as [[r g] x], b as [[r' g'] x']. unfold rgb_eqb. rewrite !andb_true_iff, !Z.eqb_eq. split; [intros [[-> ->] ->]; reflexivity|]. intros [= -> -> ->]. auto.
Qed.
Lemma near_palette c : In c palette -> near c = c.
Proof. intros H. cbn in H. repeat (destruct H as [<- | H]; [vm_compute; reflexivity|]). destruct H. Qed.
Lemma wnear_spec c : wnear c = [] <-> In c palette.
Proof.
  unfold wnear. destruct (rgb_eqb (near c) c) eqn:E.
  - apply rgb_eqb_spec in E. split; [|auto]. intros _. rewrite <- E. apply near_spec.
  - split; [discriminate|]. intros H. apply near_palette in H. apply rgb_eqb_spec in H. congruence.
Qed.
Definition palnth (i : Z) : rgb := nth (Z.to_nat i) palette (0, 0, 0).
Lemma pal_ok i : 0 <= i < 16 -> pal i = Ok (palnth i) /\ In (palnth i) palette.
Proof.
  intros H. unfold pal, palnth. assert (L : (Z.to_nat i < length palette)%nat) by (change (length palette) with 16%nat; lia).
  split; [|now apply nth_In]. now rewrite (nth_error_nth' palette (0, 0, 0) L).
Qed.
Lemma index_palette c : In c palette -> exists i, index_of c palette = Ok i /\ 0 <= i < 16 /\ palnth i = c.
Proof. intros H. cbn in H. repeat (destruct H as [<- | H]; [eexists; split; [vm_compute; reflexivity|split; [lia|reflexivity]]|]). destruct H. Qed.
Definition idx (c : rgb) : Z := match index_of c palette with Ok i => i | Err _ => 0 end.
Lemma idx_spec c : In c palette -> index_of c palette = Ok (idx c) /\ 0 <= idx c < 16 /\ palnth (idx c) = c.
Proof. intros H. destruct (index_palette c H) as (i & E & B & P). unfold idx. rewrite E. auto. Qed.
Lemma idx_canon i : 0 <= i < 16 -> idx (palnth i) = canon_index i.
Proof.
  intros H. assert (C : i = 0 \/ i = 1 \/ i = 2 \/ i = 3 \/ i = 4 \/ i = 5 \/ i = 6 \/ i = 7 \/ i = 8 \/ i = 9 \/ i = 10 \/ i = 11 \/ i = 12 \/ i = 13 \/ i = 14 \/ i = 15) by lia.
  repeat (destruct C as [-> | C]; [vm_compute; reflexivity|]). rewrite C. vm_compute. reflexivity.
Qed.
Definition enc2 (p : rgb * rgb) : Z := 16 * idx (near (fst p)) + idx (near (snd p)).
Definition dec2 (b : Z) : list rgb := [palnth (b / 16); palnth (b mod 16)].
Lemma enc2_byte p : is_byte (enc2 p).
Proof.
  unfold enc2, is_byte. destruct (idx_spec (near (fst p))) as (_ & A & _); [apply near_spec|]. destruct (idx_spec (near (snd p))) as (_ & B & _); [apply near_spec|]. lia.
Qed.
Lemma palette_set_eq a b : palette_set a b = (wnear a ++ wnear b, Ok [enc2 (a, b)]).
Proof.
  unfold palette_set. rewrite !nearest_eq. cbn [obind]. destruct (idx_spec (near a)) as (-> & A & _); [apply near_spec|].
  destruct (idx_spec (near b)) as (-> & B & _); [apply near_spec|]. cbn [olift obind].
  assert (E : Z.shiftl (idx (near a)) 4 + idx (near b) = enc2 (a, b)) by (rewrite Z.shiftl_mul_pow2 by lia; unfold enc2; cbn [fst snd]; lia).
  rewrite E. rewrite bytes_of_ok by (repeat constructor; apply enc2_byte). cbn [olift app obind]. rewrite !app_nil_r. reflexivity.
Qed.
Lemma palette_get_eq b : is_byte b -> palette_get [b] = Ok (dec2 b).
Proof.
  intros H. unfold is_byte in H. unfold palette_get. change (byte_at [b] 0) with (@Ok Z b). cbn [rbind]. rewrite Z.shiftr_div_pow2 by lia. change (2 ^ 4) with 16.
  change 15 with (Z.ones 4). rewrite Z.land_ones by lia. change (2 ^ 4) with 16.
  destruct (pal_ok (b / 16)) as [-> _]; [lia|]. destruct (pal_ok (b mod 16)) as [-> _]; [lia|]. reflexivity.
Qed.
Lemma dec_enc2 p : dec2 (enc2 p) = [near (fst p); near (snd p)].
Proof.
  destruct (idx_spec (near (fst p))) as (_ & A & A'); [apply near_spec|]. destruct (idx_spec (near (snd p))) as (_ & B & B'); [apply near_spec|].
  unfold dec2, enc2. f_equal; [|f_equal].
  - rewrite <- A' at 2. f_equal. lia. - rewrite <- B' at 2. f_equal. lia.
Qed.
Lemma enc_dec2 b : is_byte b -> enc2 (palnth (b / 16), palnth (b mod 16)) = canon_byte b.
Proof.
  intros H. unfold is_byte in H. unfold enc2, canon_byte. cbn [fst snd].
  rewrite !near_palette by (apply pal_ok; lia). rewrite !idx_canon by lia. reflexivity.
Qed.
Lemma pairs2_concat ps : pairs2 (concat (map (fun p : rgb * rgb => [fst p; snd p]) ps)) = ps.
Proof. induction ps as [|[a b] ps IH]; cbn; [reflexivity|]. now rewrite IH. Qed.
Lemma pairs2_even n row : length row = (2 * n)%nat -> row = concat (map (fun p : rgb * rgb => [fst p; snd p]) (pairs2 row)) /\ length (pairs2 row) = n.
Proof.
  revert row. induction n as [|n IH]; intros row L.
  - destruct row; [auto|discriminate L].
  - destruct row as [|a [|b r]]; try (cbn in L; lia). cbn [pairs2 map concat fst snd app length]. cbn in L. destruct (IH r) as [E1 E2]; [lia|]. split; [now rewrite <- E1|lia].
Qed.
Definition wrow (row : list rgb) : list warning := concat (map (fun p => wnear (fst p) ++ wnear (snd p)) (pairs2 row)).
Lemma pic_bytes_eq arr : pic_bytes arr = (concat (map wrow arr), Ok (concat (map (fun row => map enc2 (pairs2 row)) arr))).
Proof.
  unfold pic_bytes. rewrite (omapM_map _ (fun row => map enc2 (pairs2 row)) wrow).
  - cbn [obind oret]. now rewrite app_nil_r.
  - intros row _. rewrite (omapM_map _ (fun p => [enc2 p]) (fun p => wnear (fst p) ++ wnear (snd p))).
    + cbn [obind oret]. rewrite app_nil_r. unfold wrow. do 2 f_equal. induction (pairs2 row); cbn; congruence.
    + intros [a b] _. apply palette_set_eq.
Qed.
Lemma pic_array_rows rows : length rows = 165%nat -> Forall (fun x => length x = 133%nat) rows -> Forall wf_bytes rows ->
  pic_array (concat rows) = Ok (map (fun row => concat (map dec2 row)) rows).
Proof.
  intros L F W. unfold pic_array. replace (seq 0 165) with (seq 0 (length rows)) by now rewrite L. apply rmapM_seq. intros r row N. cbn [Nat.add].
  assert (IR : In row rows) by (eapply nth_error_In; eauto).
  assert (LR : length row = 133%nat). { rewrite Forall_forall in F. now apply F. }
  replace (seq 0 133) with (seq 0 (length row)) by now rewrite LR. erewrite (rmapM_seq _ dec2 row); [reflexivity|]. intros c x NX. cbn [Nat.add].
  assert (c < 133)%nat. { rewrite <- LR. apply nth_error_Some. congruence. }
  rewrite (sub_row 133 r c 1 rows row F N) by lia. rewrite (firstn1_skipn row c x NX). apply palette_get_eq.
  rewrite Forall_forall in W. specialize (W row IR). unfold wf_bytes in W. rewrite Forall_forall in W. apply W. eapply nth_error_In; eauto.
Qed.

(** ** RGB565 *)
Definition dec3 (lo hi : Z) : rgb := (hi / 8 * 255 / 31, (8 * (hi mod 8) + lo / 32) * 255 / 63, (lo mod 32) * 255 / 31).
Definition enc3 (c : rgb) : bytes := let '(r, g, b) := c in [32 * (g / 4 mod 8) + b / 8; 8 * (r / 8) + g / 32].
Definition bytes256 : list Z := map Z.of_nat (seq 0 256).
Lemma in_256 b : is_byte b -> In b bytes256.
Proof. intros H. unfold is_byte in H. apply in_map_iff. exists (Z.to_nat b). split; [lia|]. apply in_seq. lia. Qed.
Lemma lor_add a b k : 0 <= k -> a mod 2 ^ k = 0 -> 0 <= b < 2 ^ k -> Z.lor a b = a + b.
Proof.
  intros K A B. symmetry. rewrite <- Z.lxor_lor. 
  - apply Z.add_nocarry_lxor. apply Z.bits_inj'. intros n N. rewrite Z.land_spec, Z.bits_0. destruct (Z.lt_ge_cases n k).
    + rewrite <- (Z.mod_pow2_bits_low a k n) by lia. now rewrite A, Z.bits_0.
    + destruct (Z.eq_dec b 0) as [-> | NB]; [now rewrite Z.bits_0, andb_false_r|]. rewrite (Z.bits_above_log2 b n); [apply andb_false_r|lia|].
      apply Z.log2_lt_pow2; [lia|]. eapply Z.lt_le_trans; [apply B|]. apply Z.pow_le_mono_r; lia.
  - apply Z.bits_inj'. intros n N. rewrite Z.land_spec, Z.bits_0. destruct (Z.lt_ge_cases n k).
    + rewrite <- (Z.mod_pow2_bits_low a k n) by lia. now rewrite A, Z.bits_0.
    + destruct (Z.eq_dec b 0) as [-> | NB]; [now rewrite Z.bits_0, andb_false_r|]. rewrite (Z.bits_above_log2 b n); [apply andb_false_r|lia|].
      apply Z.log2_lt_pow2; [lia|]. eapply Z.lt_le_trans; [apply B|]. apply Z.pow_le_mono_r; lia.
Qed.
Lemma dec3_eq lo hi : is_byte lo -> is_byte hi -> rgb565_get [lo; hi] = Ok (dec3 lo hi).
Proof.
  unfold is_byte. intros L H. unfold rgb565_get, dec3.
  change (byte_at [lo; hi] 1) with (Ok hi). change (byte_at [lo; hi] 0) with (Ok lo). cbn [rbind].
  change 7 with (Z.ones 3). change (Z.land lo 31) with (Z.land lo (Z.ones 5)). rewrite !Z.land_ones by lia. rewrite Z.shiftl_mul_pow2, !Z.shiftr_div_pow2 by lia.
  rewrite (lor_add (hi mod 2 ^ 3 * 2 ^ 3) (lo / 2 ^ 5) 3).
  - change (2 ^ 3) with 8. change (2 ^ 5) with 32. now rewrite (Z.mul_comm (hi mod 8) 8).
  - lia.
  - change (2 ^ 3) with 8. lia.
  - change (2 ^ 3) with 8. change (2 ^ 5) with 32. lia.
Qed.
Lemma enc3_eq c : rgb_ok c -> rgb565_set c = Ok (enc3 c) /\ wf_bytes (enc3 c) /\ length (enc3 c) = 2%nat.
Proof.
  destruct c as [[r g] b]. intros (R & G & B). unfold is_byte in R, G, B. cbn [fst snd] in *. unfold rgb565_set, enc3.
  assert (E1 : Z.lor (Z.shiftl (Z.land (Z.shiftr g 2) 7) 5) (Z.shiftr b 3) = 32 * (g / 4 mod 8) + b / 8).
  { rewrite Z.shiftl_mul_pow2, !Z.shiftr_div_pow2 by lia. change 7 with (Z.ones 3). rewrite Z.land_ones by lia. change (2 ^ 2) with 4. change (2 ^ 3) with 8. change (2 ^ 5) with 32.
    rewrite (lor_add _ _ 5); change (2 ^ 5) with 32; lia. }
  assert (E2 : Z.lor (Z.land r (Z.lnot 7)) (Z.shiftr g 5) = 8 * (r / 8) + g / 32).
  { assert (N : Z.land r (Z.lnot 7) = 8 * (r / 8)).
    { change 7 with (Z.ones 3). rewrite <- Z.ldiff_land, Z.ldiff_ones_r by lia. rewrite Z.shiftl_mul_pow2, Z.shiftr_div_pow2 by lia. change (2 ^ 3) with 8. lia. }
    rewrite N, Z.shiftr_div_pow2 by lia. change (2 ^ 5) with 32. apply (lor_add _ _ 3); change (2 ^ 3) with 8; lia. }
  rewrite E1, E2. assert (W1 : is_byte (32 * (g / 4 mod 8) + b / 8)) by (unfold is_byte; lia). assert (W2 : is_byte (8 * (r / 8) + g / 32)) by (unfold is_byte; lia).
  assert (wf1 : forall x, is_byte x -> wf_bytes [x]) by (intros x Hx; constructor; [exact Hx|constructor]).
  rewrite !bytes_of_ok by auto. split; [reflexivity|]. split; [constructor; auto|reflexivity].
Qed.
Lemma enc_dec3 lo hi : is_byte lo -> is_byte hi -> rgb_ok (dec3 lo hi) /\ enc3 (dec3 lo hi) = [lo; hi].
Proof.
  intros L H. unfold is_byte in L, H. unfold dec3, enc3, rgb_ok, is_byte. cbn [fst snd].
  split; [lia|]. f_equal; [|f_equal]; lia.
Qed.
Lemma dec_enc3 c : rgb_ok c -> match enc3 c with [lo; hi] => close c (dec3 lo hi) | _ => False end.
Proof.
  destruct c as [[r g] b]. intros (R & G & B). unfold is_byte in R, G, B. cbn [fst snd] in *. unfold enc3, dec3, close. cbn [fst snd].
  assert (X : forall x, 0 <= x < 256 -> 31 * Z.abs (x - x / 8 * 255 / 31) < 255) by (intros; lia).
  assert (Y : forall x, 0 <= x < 256 -> 63 * Z.abs (x - x / 4 * 255 / 63) < 255) by (intros; lia).
  split; [|split].
  - replace ((8 * (r / 8) + g / 32) / 8) with (r / 8) by lia. now apply X.
  - replace (8 * ((8 * (r / 8) + g / 32) mod 8) + (32 * (g / 4 mod 8) + b / 8) / 32) with (g / 4) by lia. now apply Y.
  - replace ((32 * (g / 4 mod 8) + b / 8) mod 32) with (b / 8) by lia. now apply X.
Qed.
Definition decp (x : bytes) : rgb := match x with [lo; hi] => dec3 lo hi | _ => (0, 0, 0) end.
Definition irow (row : list rgb) : bytes := concat (map enc3 (row ++ [(0, 0, 0)])).
Lemma black_ok : rgb_ok (0, 0, 0). Proof. unfold rgb_ok, is_byte. cbn. lia. Qed.
Lemma image_bytes_eq arr : Forall (Forall rgb_ok) arr -> image_bytes arr = Ok (concat (map irow (rev arr))).
Proof.
  intros H. unfold image_bytes. rewrite (rmapM_map _ irow).
  - reflexivity.
  - intros row IR. rewrite (rmapM_map _ enc3); [reflexivity|]. intros c IC. apply enc3_eq.
    apply in_app_or in IC as [IC | [<- | []]]; [|exact black_ok]. rewrite Forall_forall in H. specialize (H row (proj2 (in_rev _ _) IR)). rewrite Forall_forall in H. auto.
Qed.
Lemma image_array_rows (rows : list (list bytes)) : length rows = 83%nat ->
  Forall (fun prs => length prs = 134%nat /\ Forall (fun x => length x = 2%nat /\ wf_bytes x) prs) rows ->
  image_array (concat (map (@concat Z) rows)) = Ok (rev (map (fun prs => map decp (firstn 133 prs)) rows)).
Proof.
  intros L F. unfold image_array. replace (seq 0 83) with (seq 0 (length rows)) by now rewrite L.
  erewrite (rmapM_seq _ (fun prs => map decp (firstn 133 prs)) rows).
  - reflexivity.
  - intros r prs NR. cbn [Nat.add]. assert (P : length prs = 134%nat /\ Forall (fun x => length x = 2%nat /\ wf_bytes x) prs).
    { rewrite Forall_forall in F. apply F. eapply nth_error_In; eauto. }
    destruct P as [LP FP].
    assert (L2 : Forall (fun x : bytes => length x = 2%nat) prs) by (eapply Forall_impl; [|exact FP]; cbn; tauto).
    replace (seq 0 133) with (seq 0 (length (firstn 133 prs))) by (rewrite firstn_length, LP; reflexivity).
    apply rmapM_seq. intros c x NX. cbn [Nat.add].
    assert (C : (c < 133)%nat). { assert (X : nth_error (firstn 133 prs) c <> None) by congruence. apply nth_error_Some in X. rewrite firstn_length in X. lia. }
    assert (NX' : nth_error prs c = Some x). { rewrite <- NX. rewrite <- (firstn_skipn 133 prs) at 1. apply nth_error_app1. rewrite firstn_length. lia. }
    clear NX. rename NX' into NX.
    rewrite (sub_row 268 r (2 * c) 2 (map (@concat Z) rows) (concat prs)).
    + replace (2 * c)%nat with (2 * c + 0)%nat by lia. rewrite (sub_row 2 c 0 2 prs x L2 NX) by lia. cbn [skipn].
      rewrite Forall_forall in FP. destruct (FP x (nth_error_In _ _ NX)) as [LX WX]. rewrite firstn_all2 by lia.
      destruct x as [|lo [|hi [|? ?]]]; try discriminate LX. inversion WX as [|? ? WL W2]; subst. inversion W2 as [|? ? WH _]; subst. now apply dec3_eq.
    + apply Forall_forall. intros y Hy. apply in_map_iff in Hy as (q & <- & Hq). rewrite Forall_forall in F. destruct (F q Hq) as [Lq Fq].
      rewrite (concat_length_const 2) by (eapply Forall_impl; [|exact Fq]; cbn; tauto). rewrite Lq. reflexivity.
    + now apply map_nth_error.
    + lia.
Qed.
