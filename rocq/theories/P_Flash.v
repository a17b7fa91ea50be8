(** Properties of flash files (C63-C66, C85-C89). *)
From Verif Require Import PyBase M_Data M_Numeric M_Flags M_Models M_Class M_Var M_List M_Flash L_Base S_Data L_Data L_Flags S_Var L_Models L_Var S_Flash L_Flash.

(** * C63: flash headers *)

(** What the loader makes of any well-formed header, with the exact list of warnings;
    bytes after the checksum are ignored. *)
Theorem C63_load c has i x : image_ok i -> x = [] \/ i_tail i <> [] ->
  h_load c has (image_bytes i ++ x) = (image_warnings c i, Ok (image_header c has i)).
Proof. apply h_load_extra. Qed.
Print Assumptions C63_load.

(** A header survives being read and written exactly if its name has eight bytes and it has
    one device (and its length byte and checksum are right). *)
Theorem C63_round_trip_iff c i : image_ok i ->
  ((exists w h, h_load c true (image_bytes i) = (w, Ok h) /\ h_bytes h = Ok (image_bytes i)) <->
   length (i_name i) = 8%nat /\ length (i_devices i) = 2%nat /\ i_name_length i = 8 /\
   (i_tail i = [] \/ i_tail i = data_sum (i_data i))).
Proof.
  intros OK. rewrite <- (round_trip_iff c i OK). split.
  - intros (w & h & E & B). rewrite h_load_image in E by auto. injection E as _ <-. exact B.
  - intros B. eexists _, _. split; [now apply h_load_image|exact B].
Qed.
Print Assumptions C63_round_trip_iff.

(** Objects: a header object of that shape is restored from its own bytes. *)
Theorem C63_restored h d0 d1 f o p :
  length (h_magic h) = 8%nat -> length (h_revision h) = 2%nat -> h_flag h = [f] -> h_object h = [o] ->
  length (h_date h) = 4%nat -> length (h_name h) = 8%nat -> trimmed (h_name h) ->
  h_devices h = [d0; d1] -> is_byte d0 -> is_byte d1 -> h_product h = [p] -> zlen (h_data h) < 2 ^ 32 ->
  h_cls h <> FHeader \/ class_of_type d1 = None ->
  exists b w, h_bytes h = Ok b /\ h_load (h_cls h) true b = (w, Ok h).
Proof.
  destruct h as [c m r fl ob d n dv pr data ck]. cbn [h_cls h_magic h_revision h_flag h_object h_date h_name h_devices h_product h_data].
  intros Lm Lr -> -> Ld Ln Tn -> B0 B1 -> Lz Hc.
  set (i := Image m r f o d 8 n [d0; d1] p data (if ck then data_sum data else [])).
  assert (OK : image_ok i).
  { unfold image_ok, i. cbn [i_magic i_revision i_date i_name i_devices i_data i_tail length skipn].
    repeat match goal with |- _ /\ _ => split end; auto; try lia; [now left| |destruct ck; auto].
    constructor; [assumption|now apply wf_one]. }
  assert (Eh : image_header c true i = FH c m r [f] [o] d n [d0; d1] [p] data ck).
  { unfold image_header, i. cbn [i_magic i_revision i_flag i_object i_date i_name i_devices i_product i_data i_tail nth].
    f_equal; [|destruct ck; reflexivity]. destruct c; try reflexivity. destruct Hc as [Hc|Hc]; [congruence|]. now rewrite Hc. }
  exists (image_bytes i), (image_warnings c i). split.
  - rewrite <- Eh. apply round_trip_iff; [assumption|]. repeat split; auto. unfold i. cbn [i_tail i_data]. destruct ck; auto.
  - rewrite <- Eh. now apply h_load_image.
Qed.
Print Assumptions C63_restored.

(** No header made by the constructor survives: its bytes are 23 too many and read back as a
    header without data, of a device nobody knows. *)
Theorem C63_constructed_refuted c c' has magic revision bf ot date name dt pid data w h :
  h_new c magic revision bf ot date name dt pid data = (w, Ok h) -> zlen data < 2 ^ 32 ->
  exists b w' h', h_bytes h = Ok b /\ zlen b = h_len h + 23 /\
    h_load c' has b = (w', Ok h') /\ h_data h' = [] /\ nth 0 (h_devices h') 1 = 0 /\ In WFlashDevice w'.
Proof. apply constructed_reload. Qed.
Print Assumptions C63_constructed_refuted.

(** The length: [len] is right exactly when name and devices take ten bytes together. *)
Theorem C63_length h b :
  length (h_magic h) = 8%nat -> length (h_revision h) = 2%nat -> length (h_flag h) = 1%nat -> length (h_object h) = 1%nat ->
  length (h_date h) = 4%nat -> zlen (h_name h) < 256 -> length (h_product h) = 1%nat -> zlen (h_data h) < 2 ^ 32 ->
  h_bytes h = Ok b -> zlen b = h_len h + (zlen (h_name h) + zlen (h_devices h) - 10).
Proof.
  intros L1 L2 L3 L4 L5 L6 L7 L8 E. rewrite h_bytes_value in E by auto. apply ok_inj in E. subst b.
  unfold h_len, zlen in *. rewrite !app_length, !repeat_length. cbn [length le32]. destruct (h_check h); cbn [length data_sum]; lia.
Qed.
Print Assumptions C63_length.

(** A smallest app: name of eight bytes, one device, Intel data. *)
Definition app8 : image :=
  Image tifl [5; 8] 1 136 [1; 2; 32; 35] 8 (s2l "Smartpad") [115; 36] 15 (s2l ":00000001FF") (data_sum (s2l ":00000001FF")).
Example app8_ok : image_ok app8.
Proof.
  unfold image_ok. cbn [app8 i_magic i_revision i_date i_name i_devices i_data i_tail]. 
  repeat match goal with |- _ /\ _ => split end; try reflexivity; try (vm_compute; lia); auto.
  - right. exists (s2l "Smartpa"), 100. now split.
  - now left.
  - repeat (constructor; [unfold is_byte; lia|]). constructor.
Qed.
Example C63_round_trip_example :
  exists h, h_load FHeader true (image_bytes app8) = ([], Ok h) /\ h_cls h = FApp /\ h_bytes h = Ok (image_bytes app8) /\
    zlen (image_bytes app8) = 91.
Proof. eexists. split; [vm_compute; reflexivity|]. repeat split; vm_compute; reflexivity. Qed.
Example C63_warnings_example :
  h_load FOperatingSystem true (image_bytes (Image (s2l "**TIFX**") [0; 0] 1 136 [0; 0; 0; 0] 3 (s2l "abcd") [1; 36] 0 [7] [1; 0])) =
  ([WFlashMagic; WFlashName; WFlashDevice; WFlashType; WChecksum],
   Ok (FH FOperatingSystem (s2l "**TIFX**") [0; 0] [1] [136] [0; 0; 0; 0] (s2l "abcd") [1; 36] [0] [7] true)).
Proof. vm_compute. reflexivity. Qed.
Example C63_constructed_example :
  let h := FH FApp tifl [0; 0] [1] [136] [0; 0; 0; 0] (s2l "UNNAMED" ++ zeros 24) [115; 36] [0] (s2l ":00000001FF") true in
  h_new FApp (s2l "**TIFL**") (s2l "0.0") false 136 (0, 0, 0) (s2l "UNNAMED") 115 0 (s2l ":00000001FF") = ([], Ok h) /\
  exists b w h', h_bytes h = Ok b /\ h_load FApp true b = (w, Ok h') /\ h_data h' = [] /\ w = [WFlashDevice; WFlashType].
Proof.
  cbv zeta. split; [vm_compute; reflexivity|]. do 3 eexists.
  split; [vm_compute; reflexivity|]. split; [vm_compute; reflexivity|]. now split.
Qed.

(** Which inputs load at all. *)
Definition outcome {A} (o : out A) : result unit := match snd o with Ok _ => Ok tt | Err e => Err e end.
Lemma outcome_warn {A} b w (k : unit -> out A) : outcome (obind (owarn_if b w) k) = outcome (k tt).
Proof. unfold outcome, owarn_if, obind. now destruct (k tt). Qed.
Lemma outcome_bind {A B} (m : out A) (k : A -> out B) :
  outcome (obind m k) = match snd m with Ok a => outcome (k a) | Err e => Err e end.
Proof. destruct m as [w [a|e]]; unfold outcome, obind; [|reflexivity]. cbn [snd]. now destruct (k a). Qed.
Lemma coerce_outcome h : (exists d0 d1 r, h_devices h = d0 :: d1 :: r /\ is_byte d1) -> outcome (h_coerce h) = Ok tt.
Proof.
  destruct h as [c m r f o d n v p data ck]. cbn [h_devices]. intros (d0 & d1 & r' & -> & B).
  unfold h_coerce. cbn [h_cls]. destruct (flash_type_id c); [reflexivity|].
  rewrite outcome_bind. rewrite type_id_at by auto. cbn [olift snd].
  destruct (flash_get_type d1); [reflexivity|]. destruct (d1 =? 255); reflexivity.
Qed.
Theorem C63_loads_iff c has l : wf_bytes l ->
  outcome (h_load c has l) =
    if zlen l <? 17 then Err IndexError else if zlen l <? 50 then Err ValueError else Ok tt.
Proof.
  intros W. unfold h_load, rd. rewrite !skipn_skipn'. cbn [Nat.add]. rewrite outcome_warn, outcome_bind. cbn [olift snd].
  destruct (zlen l <? 17) eqn:E1.
  { rewrite (skipn_ge l 16) by (unfold zlen in E1; lia). reflexivity. }
  assert (L1 : length (firstn 1 (skipn 16 l)) = 1%nat) by (rewrite firstn_length, skipn_length; unfold zlen in E1; lia).
  apply one in L1. destruct L1 as [nl ->]. cbn [py_index]. change (py_index [nl] 0) with (@Ok Z nl). cbn iota beta.
  rewrite outcome_warn, outcome_bind. cbn [olift snd].
  destruct (zlen l <? 50) eqn:E2.
  - destruct (zlen l <? 49) eqn:E3.
    { rewrite (skipn_ge l 48) by (unfold zlen in E3; lia). reflexivity. }
    assert (L1 : length (firstn 1 (skipn 48 l)) = 1%nat) by (rewrite firstn_length, skipn_length; unfold zlen in E3; lia).
    apply one in L1. destruct L1 as [d0 ->]. rewrite device_type_at. rewrite outcome_warn.
    rewrite (skipn_ge l 49) by (unfold zlen in E2; lia). cbn [firstn app].
    destruct (flash_type_id c) eqn:Ec; [reflexivity|]. rewrite obind_oret.
    assert (SK : forall n, (50 <= n)%nat -> skipn n l = []) by (intros n Hn; apply skipn_ge; unfold zlen in E2; lia).
    rewrite (SK 50%nat), (SK 73%nat), (SK 74%nat), (SK 78%nat) by lia. change (firstn ?n []) with (firstn n (@nil Z)). rewrite !firstn_nil.
    rewrite ?SK by lia. rewrite ?firstn_nil.
    rewrite outcome_warn. unfold h_coerce. cbn [h_cls]. rewrite Ec. reflexivity.
  - assert (L1 : length (firstn 1 (skipn 48 l)) = 1%nat) by (rewrite firstn_length, skipn_length; unfold zlen in E2; lia).
    apply one in L1. destruct L1 as [d0 ->]. rewrite device_type_at. rewrite outcome_warn.
    assert (L2 : length (firstn 1 (skipn 49 l)) = 1%nat) by (rewrite firstn_length, skipn_length; unfold zlen in E2; lia).
    assert (W2 : wf_bytes (firstn 1 (skipn 49 l))) by now apply wf_firstn, wf_skipn.
    apply one in L2. destruct L2 as [d1 E3]. rewrite E3 in *. assert (B1 : is_byte d1) by now inversion W2. cbn [app].
    rewrite outcome_bind.
    replace (snd match flash_type_id c with Some own => _ | None => oret tt end) with (@Ok unit tt)
      by (destruct (flash_type_id c); [rewrite type_id_at by auto|]; reflexivity).
    rewrite outcome_warn.
    destruct (firstn 2 _) as [|k0 kr].
    + apply coerce_outcome. cbn [h_devices]. eauto.
    + rewrite checksum_data. rewrite outcome_bind. cbn [olift snd]. rewrite outcome_warn. apply coerce_outcome. cbn [h_devices]. eauto.
Qed.
Print Assumptions C63_loads_iff.
Example C63_loads_example : outcome (h_load FHeader true (firstn 50 (image_bytes app8))) = Ok tt /\
  outcome (h_load FHeader true (firstn 49 (image_bytes app8))) = Err ValueError /\
  outcome (h_load FHeader true (firstn 16 (image_bytes app8))) = Err IndexError.
Proof. repeat split; vm_compute; reflexivity. Qed.

(** * C64: Intel blocks *)

(** The constructor makes the block meant; without data there is nothing to write. *)
Theorem C64_new a t p : intel_ok a t p ->
  block_new (hex_text [a / 256; a mod 256]) (hex_text [t]) (hex_text p) =
  ([], Ok (match p with
           | [] => Block (hex_text [a / 256; a mod 256]) (hex_text [t]) None
           | _ => intel_block a t p
           end)).
Proof. intros _. destruct p; reflexivity. Qed.
Print Assumptions C64_new.
Theorem C64_empty_refuted a t w k : block_new a t [] = (w, Ok k) -> block_bytes k = Err AttributeError.
Proof.
  unfold block_new. intros E. apply obind_ok in E. destruct E as (? & a' & ? & _ & E & _).
  apply obind_ok in E. destruct E as (? & t' & ? & _ & E & _). injection E as _ <-. reflexivity.
Qed.
Print Assumptions C64_empty_refuted.
(** A block is written as the record of its parts with the right check byte. *)
Theorem C64_write a t p : intel_ok a t p ->
  block_bytes (intel_block a t p) = Ok (intel_line a t p (intel_check a t p)).
Proof. apply block_bytes_text. Qed.
Print Assumptions C64_write.
(** The bytes of a record add up to a multiple of 256 exactly with that check byte. *)
Theorem C64_sum a t p ck : intel_ok a t p -> is_byte ck ->
  (total (zlen p :: a / 256 :: a mod 256 :: t :: p ++ [ck]) mod 256 = 0 <-> ck = intel_check a t p).
Proof.
  intros _ Hc. assert (T : total (p ++ [ck]) = total p + ck).
  { induction p as [|b p IH]; cbn [app total]; [lia|]. rewrite IH. lia. }
  cbn [total]. rewrite T. unfold intel_check, is_byte in *. generalize (total p) (zlen p). intros x y. split; intros; lia.
Qed.
Print Assumptions C64_sum.
(** Reading a record, with any check byte and any text behind it. *)
Theorem C64_parse a t p ck x : intel_ok a t p -> is_byte ck ->
  block_load (intel_line a t p ck ++ x) =
    ((if (t =? 0) || (t =? 1) || (t =? 2) then [] else [WFlashBlockType]) ++
     (if ck =? intel_check a t p then [] else [WChecksum]), Ok (intel_block a t p)).
Proof. apply block_load_text. Qed.
Print Assumptions C64_parse.
(** Changing one payload byte is always noticed. *)
Theorem C64_detects a t p q b b' : intel_ok a t (p ++ b :: q) -> is_byte b' -> b' <> b ->
  In WChecksum (fst (block_load (intel_line a t (p ++ b' :: q) (intel_check a t (p ++ b :: q))))).
Proof.
  intros (Ha & Ht & Hp & Hl) Hb N.
  assert (OK : intel_ok a t (p ++ b' :: q)).
  { repeat split; try tauto; try apply Ht.
    - apply wf_bytes_app in Hp. destruct Hp as [W1 W2]. apply wf_bytes_app. split; [assumption|]. inversion W2. now constructor.
    - rewrite zlen_app, zlen_cons in *. assumption. }
  rewrite <- (app_nil_r (intel_line _ _ _ _)). rewrite block_load_text by (auto using intel_check_byte). cbn [fst].
  apply in_or_app. right.
  replace (intel_check a t (p ++ b :: q) =? intel_check a t (p ++ b' :: q)) with false; [now left|].
  symmetry. apply Z.eqb_neq. unfold intel_check. rewrite !zlen_app, !zlen_cons.
  assert (T : forall c, total (p ++ c :: q) = total p + c + total q).
  { intros c. clear. induction p as [|b p IH]; cbn [app total]; [lia|]. rewrite IH. lia. }
  rewrite !T. apply wf_bytes_app in Hp. destruct Hp as [_ W2]. assert (Bb : is_byte b) by now inversion W2.
  unfold is_byte in *. generalize (total p) (total q) (zlen p) (zlen q). intros. lia.
Qed.
Print Assumptions C64_detects.
(** The first character is not looked at, nor is anything behind the check byte. *)
Theorem C64_strict_refuted : exists l l', l <> l' /\ block_load l = block_load l' /\ fst (block_load l) = [] /\
  exists k, block_bytes k = Ok l' /\ block_load l = ([], Ok k).
Proof.
  exists (s2l "x00000001FFjunk"), (s2l ":00000001FF"). split; [discriminate|]. split; [vm_compute; reflexivity|].
  split; [vm_compute; reflexivity|]. eexists. split; [|vm_compute; reflexivity]. vm_compute. reflexivity.
Qed.
Print Assumptions C64_strict_refuted.
Example C64_example :
  intel_ok 17768 0 [1; 171; 255] /\ intel_line 17768 0 [1; 171; 255] (intel_check 17768 0 [1; 171; 255]) = s2l ":0345680001ABFFA5" /\
  block_bytes (intel_block 17768 0 [1; 171; 255]) = Ok (s2l ":0345680001ABFFA5") /\
  block_load (s2l ":0345680001ABFEA5") = ([WChecksum], Ok (intel_block 17768 0 [1; 171; 254])).
Proof.
  split; [|split; [vm_compute; reflexivity|split; vm_compute; reflexivity]].
  unfold intel_ok, is_byte. repeat split; try (vm_compute; congruence); try lia.
  repeat (constructor; [unfold is_byte; lia|]). constructor.
Qed.

(** * C65: dates and revisions *)

Lemma cons_eq {A} (a b : A) l m : a = b -> l = m -> a :: l = b :: m. Proof. congruence. Qed.
(** Dates in range are stored as eight decimal digits and read back. *)
Theorem C65_date d m y : 0 <= d < 100 -> 0 <= m < 100 -> 0 <= y < 10000 ->
  date_set (d, m, y) (Some 4%nat) = Ok [bcd1 d; bcd1 m; bcd1 (y / 100); bcd1 (y mod 100)] /\
  date_get [bcd1 d; bcd1 m; bcd1 (y / 100); bcd1 (y mod 100)] = (d, m, y).
Proof.
  intros Hd Hm Hy. assert (E : rev (bcd_le 4 (d * 1000000 + m * 10000 + y)) = [bcd1 d; bcd1 m; bcd1 (y / 100); bcd1 (y mod 100)]).
  { cbn [bcd_le rev app]. unfold bcd1. apply cons_eq; [lia|]. apply cons_eq; [lia|]. apply cons_eq; [lia|]. apply cons_eq; [lia|reflexivity]. }
  rewrite date_set_value, E by lia. split; [reflexivity|]. rewrite <- E, date_read by lia.
  replace ((d * 1000000 + m * 10000 + y) / 1000000) with d by lia.
  replace ((d * 1000000 + m * 10000 + y) / 10000 mod 100) with m by lia.
  now replace ((d * 1000000 + m * 10000 + y) mod 10000) with y by lia.
Qed.
Print Assumptions C65_date.
(** Any other triple is refused or, if the digits still fit, carried over. *)
Theorem C65_date_any d m y : let t := d * 1000000 + m * 10000 + y in
  (0 <= t < 100000000 -> exists b, date_set (d, m, y) (Some 4%nat) = Ok b /\ date_get b = (t / 1000000, t / 10000 mod 100, t mod 10000)) /\
  (~ 0 <= t < 100000000 -> date_set (d, m, y) (Some 4%nat) = Err OverflowError).
Proof.
  cbv zeta. split; intros H.
  - eexists. split; [now apply date_set_value|now apply date_read].
  - now apply date_set_refuse.
Qed.
Print Assumptions C65_date_any.
Theorem C65_date_refuted : exists v b, date_set v (Some 4%nat) = Ok b /\ date_get b <> v /\ v = (31, 12, 10000).
Proof. exists (31, 12, 10000), [49; 19; 0; 0]. split; [vm_compute; reflexivity|]. split; [|reflexivity]. intros X. vm_compute in X. discriminate X. Qed.
Print Assumptions C65_date_refuted.
(** Revisions x.y below 100 without leading zeros. *)
Theorem C65_revision x y : 0 <= x < 100 -> 0 <= y < 100 ->
  revision_set (dec2 x ++ 46 :: dec2 y) (Some 2%nat) = Ok [bcd1 x; bcd1 y] /\
  revision_get [bcd1 x; bcd1 y] = dec2 x ++ 46 :: dec2 y.
Proof.
  intros Hx Hy. rewrite <- !dec2_str by auto. rewrite revision_set_str by lia.
  rewrite bcd_set_value by (change (100 ^ Z.of_nat 2) with 10000; lia).
  assert (E : rev (bcd_le 2 (100 * x + y)) = [bcd1 x; bcd1 y]).
  { cbn [bcd_le rev app]. unfold bcd1. apply cons_eq; [lia|]. apply cons_eq; [lia|reflexivity]. }
  rewrite E. split; [reflexivity|]. rewrite <- E, revision_read by lia.
  replace ((100 * x + y) / 100) with x by lia. now replace ((100 * x + y) mod 100) with y by lia.
Qed.
Print Assumptions C65_revision.
(** Larger parts carry or are refused; text without exactly one point is refused. *)
Theorem C65_revision_any x y : 0 <= x -> 0 <= y ->
  (100 * x + y < 10000 -> exists b, revision_set (str_of_int x ++ 46 :: str_of_int y) (Some 2%nat) = Ok b /\
     revision_get b = str_of_int (x + y / 100) ++ 46 :: str_of_int (y mod 100)) /\
  (10000 <= 100 * x + y -> revision_set (str_of_int x ++ 46 :: str_of_int y) (Some 2%nat) = Err OverflowError).
Proof.
  intros Hx Hy. rewrite revision_set_str by auto. split; intros H.
  - rewrite bcd_set_value by (change (100 ^ Z.of_nat 2) with 10000; lia). eexists. split; [reflexivity|].
    rewrite revision_read by lia. replace ((100 * x + y) / 100) with (x + y / 100) by lia. now replace ((100 * x + y) mod 100) with (y mod 100) by lia.
  - apply bcd_set_refuse. change (100 ^ Z.of_nat 2) with 10000. lia.
Qed.
Print Assumptions C65_revision_any.
Theorem C65_revision_refuses s n : count_occ Z.eq_dec s 46 <> 1%nat -> revision_set s n = Err ValueError.
Proof.
  intros H. unfold revision_set. pose proof (split_dot_length s []) as L.
  destruct (split_dot s []) as [|a [|b [|c r]]]; try reflexivity. cbn [length] in L. congruence.
Qed.
Print Assumptions C65_revision_refuses.
(** A leading zero after the point is lost. *)
Theorem C65_revision_refuted : exists s b, revision_set s (Some 2%nat) = Ok b /\ revision_get b <> s /\ s = s2l "5.01".
Proof. exists (s2l "5.01"), [5; 1]. split; [vm_compute; reflexivity|]. split; [|reflexivity]. intros X. vm_compute in X. discriminate X. Qed.
Print Assumptions C65_revision_refuted.
(** Device lists. *)
Theorem C65_devices l : Forall (fun p => is_byte (fst p) /\ is_byte (snd p)) l ->
  exists d, devices_set l = Ok d /\ devices_get d = l.
Proof. apply devices_round. Qed.
Print Assumptions C65_devices.
Example C65_example :
  date_set (16, 11, 2026) (Some 4%nat) = Ok [22; 17; 32; 38] /\ date_get [22; 17; 32; 38] = (16, 11, 2026) /\
  revision_set (s2l "5.80") (Some 2%nat) = Ok [5; 128] /\ revision_get [5; 128] = s2l "5.80" /\
  date_set (100, 0, 0) (Some 4%nat) = Err OverflowError /\
  devices_set [(115, 62); (116, 62)] = Ok [115; 62; 116; 62] /\ devices_get [115; 62; 116; 62] = [(115, 62); (116, 62)].
Proof. repeat split; vm_compute; reflexivity. Qed.

(** * C66: peeking at the next header *)

(** Wherever a whole header starts, the stream comes back to that place, and the length
    is what the size word says, plus two unless the file ends or a new header
    starts there. *)
Theorem C66_next_length buf p : wf_bytes buf -> (p + 78 <= length buf)%nat ->
  let size := le_int (firstn 4 (skipn (p + 74) buf)) in
  let rest := skipn (p + 78 + Z.to_nat size) buf in
  next_header_length (Stream buf p) =
    (78 + size + match rest with [] => 0 | _ => if leqb (firstn 8 rest) tifl then 0 else 2 end, Stream buf p).
Proof. intros W. apply next_length. apply le_int_nonneg, wf_firstn, wf_skipn, W. Qed.
Print Assumptions C66_next_length.
(** Among well-formed headers that is the length of the next one. *)
Theorem C66_next_image pre i l : image_ok i -> Forall (fun i => image_ok i /\ i_magic i = tifl) l ->
  next_header_length (Stream (pre ++ image_bytes i ++ flash_file l) (length pre)) =
    (zlen (image_bytes i), Stream (pre ++ image_bytes i ++ flash_file l) (length pre)).
Proof. intros OK F. apply next_image; [assumption|now apply file_next]. Qed.
Print Assumptions C66_next_image.
(** A stream that ends within the size word is not brought back. *)
Theorem C66_truncated_refuted : exists s, st_pos (snd (next_header_length s)) <> st_pos s.
Proof. exists (Stream (zeros 200) 150). vm_compute. discriminate. Qed.
Print Assumptions C66_truncated_refuted.
Example C66_example :
  next_header_length (Stream ([1; 2; 3] ++ image_bytes app8 ++ flash_file [app8; app8]) 3) =
    (91, Stream ([1; 2; 3] ++ image_bytes app8 ++ flash_file [app8; app8]) 3).
Proof. vm_compute. reflexivity. Qed.

(** * C85: data in blocks *)

(** A record with its parts. *)
Record rec := Rec { r_address : Z; r_type : Z; r_payload : bytes }.
Definition rec_ok (r : rec) : Prop :=
  intel_ok (r_address r) (r_type r) (r_payload r) /\ (r_type r = 0 \/ r_type r = 1 \/ r_type r = 2).
Definition rec_line (r : rec) : bytes :=
  intel_line (r_address r) (r_type r) (r_payload r) (intel_check (r_address r) (r_type r) (r_payload r)).
Definition rec_block (r : rec) : block := intel_block (r_address r) (r_type r) (r_payload r).
(** Lines separated by CR LF. *)
Fixpoint crlf_joined (l : list bytes) : bytes :=
  match l with [] => [] | [x] => x | x :: r => x ++ 13 :: 10 :: crlf_joined r end.
Lemma rec_load r : rec_ok r -> block_load (rec_line r) = oret (rec_block r).
Proof.
  intros [OK T]. unfold rec_line. rewrite <- (app_nil_r (intel_line _ _ _ _)).
  rewrite block_load_text by (auto using intel_check_byte). rewrite Z.eqb_refl.
  replace ((r_type r =? 0) || (r_type r =? 1) || (r_type r =? 2)) with true by (destruct T as [->|[->| ->]]; reflexivity). reflexivity.
Qed.
Lemma recs_load l : Forall rec_ok l -> omapM block_load (map rec_line l) = oret (map rec_block l).
Proof. induction 1 as [|r l H F IH]; [reflexivity|]. cbn [map omapM]. now rewrite rec_load, IH by auto. Qed.
Lemma recs_bytes l : Forall rec_ok l -> rmapM block_bytes (map rec_block l) = Ok (map rec_line l).
Proof.
  induction 1 as [|r l [H _] F IH]; [reflexivity|]. cbn [map rmapM]. unfold rec_block at 1. rewrite block_bytes_text by auto.
  cbn [rbind]. now rewrite IH.
Qed.
Lemma recs_no_cr l : Forall (fun x => ~ In 13 x) (map rec_line l).
Proof. induction l; constructor; auto. apply line_no_cr. Qed.
(** Data made of records, in a header with binary flag 1, reads as their blocks, without
    warnings, and the blocks make the same data. *)
Theorem C85_blocks h l : h_binary_flag h = Ok 1 -> l <> [] -> Forall rec_ok l -> h_data h = crlf_joined (map rec_line l) ->
  fdata_get h = ([], Ok (DBlocks (map rec_block l))) /\
  fdata_set h (DBlocks (map rec_block l)) = Ok (h_data h).
Proof.
  intros B NE F D. assert (J : crlf_joined (map rec_line l) = join_lines (map rec_line l)) by reflexivity.
  unfold fdata_get, fdata_set. rewrite B, D, J. unfold olift. rewrite obind_ret_l. change (1 =? 1) with true. cbn iota. split.
  - rewrite split_join; [|destruct l; [congruence|discriminate]|apply recs_no_cr].
    rewrite recs_load by auto. reflexivity.
  - cbn [rbind]. now rewrite recs_bytes.
Qed.
Print Assumptions C85_blocks.
(** Without the flag the data are the bytes. *)
Theorem C85_binary h f : h_binary_flag h = Ok f -> f <> 1 ->
  fdata_get h = ([], Ok (DRaw (h_data h))) /\ forall b, fdata_set h (DRaw b) = Ok b.
Proof.
  intros B N. unfold fdata_get, fdata_set. rewrite B. unfold olift. rewrite obind_ret_l. cbn [rbind].
  replace (f =? 1) with false by lia. now split.
Qed.
Print Assumptions C85_binary.
(** Data whose lines are each ended by CR LF cannot be read. *)
Theorem C85_terminated_refuted h l : h_binary_flag h = Ok 1 -> Forall rec_ok l ->
  h_data h = flat_map (fun x => x ++ [13; 10]) (map rec_line l) -> fdata_get h = ([], Err ValueError).
Proof.
  intros B F D. unfold fdata_get. rewrite B, D. unfold olift. rewrite obind_ret_l. change (1 =? 1) with true. cbn iota.
  rewrite split_terminated by apply recs_no_cr.
  assert (E : omapM block_load (map rec_line l ++ [[]]) = ([], Err ValueError)); [|exact (f_equal (fun m => obind m (fun l => oret (DBlocks l))) E)].
  clear B D. induction F as [|r l H F IH]; [reflexivity|]. cbn [map app omapM]. rewrite rec_load by auto. now rewrite IH.
Qed.
Print Assumptions C85_terminated_refuted.
Example C85_example :
  let d := s2l ":0345680001ABFFA5" ++ [13; 10] ++ s2l ":00000001FF" in
  let h := FH FApp tifl [0; 0] [1] [136] [0; 0; 0; 0] (s2l "A") [115; 36] [0] d true in
  fdata_get h = ([], Ok (DBlocks [intel_block 17768 0 [1; 171; 255]; intel_block 0 1 []])) /\
  d = crlf_joined (map rec_line [Rec 17768 0 [1; 171; 255]; Rec 0 1 []]).
Proof. split; vm_compute; reflexivity. Qed.

(** * C86: file extensions *)

Lemma le_self order m : model_le order m m = true.
Proof. unfold model_le. rewrite (proj2 (model_eqb_spec m m) eq_refl). apply orb_true_r. Qed.
Lemma in_models m : In m (rev MODELS).
Proof. apply in_rev. rewrite rev_involutive. destruct m; cbn; tauto. Qed.
(** Only the models named in the table of a class get an extension of their own, for every
    chronology of the models; all others get the default with a warning. *)
Theorem C86_extension order c m : exists w,
  flash_extension order c m =
    (w ++ match ext_get (flash_extensions c) (Some m) with Some _ => [] | None => [WExtension] end,
     Ok (match ext_get (flash_extensions c) (Some m) with
         | Some x => x
         | None => match ext_get (flash_extensions c) None with Some x => x | None => [] end
         end)) /\ (w = [] \/ w = [WModel]).
Proof.
  unfold flash_extension.
  assert (H : exists f, has m Flash = Ok f) by (destruct m; vm_compute; eauto). destruct H as [f ->].
  exists (if negb f then [WModel] else []). split; [|destruct f; auto].
  destruct (ext_get (flash_extensions c) (Some m)) as [x|] eqn:E.
  - assert (X : existsb (fun k => model_le order k m) (rev MODELS) = true)
      by (apply existsb_exists; exists m; split; [apply in_models|apply le_self]).
    rewrite X. unfold lookup_ext. rewrite E.
    assert (N : x <> []) by (intros ->; destruct c, m; discriminate E).
    destruct x as [|x0 xr]; [congruence|]. destruct f; reflexivity.
  - assert (X : existsb (fun _ : model => false) (rev MODELS) = false) by reflexivity. rewrite X.
    unfold lookup_ext. destruct c; destruct f; reflexivity.
Qed.
Print Assumptions C86_extension.
Example C86_example order : ext_get (flash_extensions FApp) (Some TI_83P) = Some (s2l "8xk") /\
  ext_get (flash_extensions FApp) (Some TI_84P) = None /\ ext_get (flash_extensions FApp) None = Some (s2l "8ek") /\
  exists w, flash_extension order FApp TI_84P = (w ++ [WExtension], Ok (s2l "8ek")).
Proof.
  split; [reflexivity|]. split; [reflexivity|]. split; [reflexivity|]. destruct (C86_extension order FApp TI_84P) as (w & E & _). exists w. exact E.
Qed.
(** So an app for a TI-84+ is not named like one for the TI-83+, whatever the chronology. *)
Theorem C86_fallback_refuted order :
  flash_extension order FApp TI_83P = ([], Ok (s2l "8xk")) /\
  flash_extension order FApp TI_84P = ([WExtension], Ok (s2l "8ek")).
Proof.
  destruct (C86_extension order FApp TI_83P) as (w & E & _). destruct (C86_extension order FApp TI_84P) as (w' & E' & _).
  split.
  - unfold flash_extension. change (has TI_83P Flash) with (@Ok bool true). cbn [olift obind owarn_if negb].
    change (ext_get (flash_extensions FApp) (Some TI_83P)) with (Some (s2l "8xk")).
    assert (X : existsb (fun k => model_le order k TI_83P) (rev MODELS) = true)
      by (apply existsb_exists; exists TI_83P; split; [apply in_models|apply le_self]).
    cbn iota. rewrite X. reflexivity.
  - reflexivity.
Qed.
Print Assumptions C86_fallback_refuted.

(** * C87: files with several headers *)

(** [load_from_file] with offset k reads exactly the k-th header. *)
Theorem C87_select l k i : Forall (fun i => image_ok i /\ i_magic i = tifl) l -> nth_error l k = Some i ->
  select_header k (Stream (flash_file l) 0) = image_bytes i.
Proof. intros F E. exact (select_image [] k l F i E). Qed.
Print Assumptions C87_select.
(** [open] reads the first, and says if there are more. *)
Theorem C87_open c has i l : Forall (fun i => image_ok i /\ i_magic i = tifl) (i :: l) ->
  h_open c has (flash_file (i :: l)) =
    (image_warnings c i ++ match l with [] => [] | _ => [WMultiple] end, Ok (image_header c has i)).
Proof. apply open_file. Qed.
Print Assumptions C87_open.
(** Three headers, the second without a checksum. *)
Definition lic (t : bytes) : image := Image tifl [5; 8] 0 136 [1; 2; 32; 35] 7 (s2l "License") [115; 62; 116; 62] 15 (s2l "text") t.
Example C87_example : let l := [app8; lic []; lic (data_sum (s2l "text"))] in
  select_header 2 (Stream (flash_file l) 0) = image_bytes (lic (data_sum (s2l "text"))) /\
  select_header 1 (Stream (flash_file l) 0) = image_bytes (lic []) /\
  fst (h_open FHeader true (flash_file l)) = [WMultiple] /\ fst (h_open FHeader true (flash_file [lic []])) = [].
Proof. repeat split; vm_compute; reflexivity. Qed.

(** * C88: assigning data *)

(** [header.data = ...] never works: the slot is an immutable [bytes]. *)
Theorem C88_assign_refuted h v : exists e, snd (fdata_assign h v) = Err e.
Proof.
  unfold fdata_assign, view_set, section_set_raw. destruct (fdata_set h v) as [b|e]; [|eexists; reflexivity].
  unfold olift. rewrite obind_ret_l. cbn [option_map v_start v_stop fit_section]. exists TypeError. reflexivity.
Qed.
Print Assumptions C88_assign_refuted.
Example C88_example :
  fdata_assign (FH FApp tifl [0; 0] [0] [136] [0; 0; 0; 0] (s2l "A") [115; 36] [0] [1] true) (DRaw [2]) = ([], Err TypeError).
Proof. vm_compute. reflexivity. Qed.

(** * C89: whether a header has a checksum *)

(** An object that has once read a header without checksum never reports or writes one
    again. *)
Theorem C89_sticky_refuted c i : image_ok i ->
  exists h, snd (h_load c false (image_bytes i)) = Ok h /\ h_check h = false /\
    h_len h = 78 + zlen (i_data i).
Proof.
  intros OK. rewrite h_load_image by auto. eexists. split; [reflexivity|]. unfold image_header, h_len. cbn [h_check h_data].
  destruct (i_tail i); cbn; split; auto; lia.
Qed.
Print Assumptions C89_sticky_refuted.
(** Reading through the constructor forgets that the checksum was missing. *)
Theorem C89_init_refuted c i : image_ok i ->
  exists h, snd (h_init c (image_bytes i)) = Ok h /\ h_check h = true /\ h_len h = 78 + zlen (i_data i) + 2.
Proof.
  intros OK. unfold h_init. rewrite h_load_image by auto. eexists. split; [reflexivity|]. split; reflexivity.
Qed.
Print Assumptions C89_init_refuted.
(** A fresh object remembers it. *)
Theorem C89_fresh c i : image_ok i ->
  exists h, snd (h_load c true (image_bytes i)) = Ok h /\ (h_check h = true <-> i_tail i <> []).
Proof.
  intros OK. rewrite h_load_image by auto. eexists. split; [reflexivity|]. unfold image_header. cbn [h_check].
  destruct (i_tail i); split; intros; congruence.
Qed.
Print Assumptions C89_fresh.
Example C89_example :
  exists h, h_load FHeader false (image_bytes app8) = ([], Ok h) /\ h_bytes h = Ok (firstn 89 (image_bytes app8)) /\ h_len h = 89.
Proof. eexists. split; [vm_compute; reflexivity|]. split; vm_compute; reflexivity. Qed.
