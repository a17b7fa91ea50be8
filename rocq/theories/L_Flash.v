(** Lemmas about flash files. *)
From Verif Require Import PyBase M_Data M_Numeric M_Flags M_Models M_Class M_Var M_List M_Flash L_Base S_Data L_Data L_Flags S_Var L_Models L_Var S_Flash.

(** * Headers *)
Lemma rd_app n a b : length a = n -> rd n (a ++ b) = (a, b).
Proof. intros E. unfold rd. now rewrite firstn_app_exact, skipn_app_exact. Qed.
Lemma rd_all n a : (length a <= n)%nat -> rd n a = (a, []).
Proof. intros E. unfold rd. now rewrite firstn_ge, skipn_ge. Qed.
Lemma trimmed_rstrip l n : trimmed l -> rstrip0 (l ++ repeat 0 n) = l.
Proof.
  change (repeat 0 n) with (zeros n). intros T. rewrite rstrip0_app_zeros. destruct T as [->|[r [x [-> H]]]]; [reflexivity|].
  apply rstrip0_id. now rewrite last_last.
Qed.
Lemma trimmed_rstrip0 l : trimmed l -> rstrip0 l = l.
Proof. intros T. rewrite <- (trimmed_rstrip l 0 T) at 2. simpl. now rewrite app_nil_r. Qed.
Lemma nul_padded_length n l : (length l <= n)%nat -> length (nul_padded n l) = n.
Proof. intros. unfold nul_padded. rewrite app_length, repeat_length. lia. Qed.
Lemma le32_le_bytes n : 0 <= n < 2 ^ 32 -> le32 n = le_bytes 4 n.
Proof.
  intros. unfold le32. cbn [le_bytes].
  rewrite !Z.div_div by lia. reflexivity.
Qed.
Lemma le_int_le32 n : 0 <= n < 2 ^ 32 -> le_int (le32 n) = n.
Proof. intros. rewrite le32_le_bytes by auto. apply le_int_le_bytes. change (256 ^ Z.of_nat 4) with (2 ^ 32). lia. Qed.
Lemma total_zsum l : total l = zsum l.
Proof. reflexivity. Qed.
Lemma land16 n : Z.land n 65535 = n mod 65536.
Proof. change 65535 with (Z.ones 16). rewrite Z.land_ones by lia. reflexivity. Qed.
Lemma data_sum_length l : length (data_sum l) = 2%nat. Proof. reflexivity. Qed.
Lemma checksum_data h : h_checksum h = Ok (data_sum (h_data h)).
Proof.
  unfold h_checksum, to_bytes_le, data_sum. rewrite land16; change (zsum (h_data h)) with (total (h_data h)); generalize (total (h_data h)); intros t.
  rewrite (proj2 (fits_spec 2 _)) by (change (256 ^ Z.of_nat 2) with 65536; lia).
  cbn [le_bytes]. do 2 f_equal; [|f_equal]; lia.
Qed.
Lemma device_type_at d0 r c m v f o dt n p d k :
  h_device_type (FH c m v f o dt n (d0 :: r) p d k) = Ok d0.
Proof. unfold h_device_type, view_get. cbn [h_devices b_data v_start v_stop]. rewrite py_slice_nn by (rewrite ?zlen_cons; pose proof (zlen_nonneg r); lia). reflexivity. Qed.
Lemma type_id_at d0 d1 r c m v f o dt n p d k : is_byte d1 ->
  h_type_id (FH c m v f o dt n (d0 :: d1 :: r) p d k) = Ok d1.
Proof.
  intros W. unfold h_type_id, view_get. cbn [h_devices b_data v_start v_stop].
  rewrite py_slice_nn by (rewrite ?zlen_cons; pose proof (zlen_nonneg r); lia).
  change (firstn _ _) with [d1]. now rewrite bits_get_byte.
Qed.
Lemma magic_strip m : length m = 8%nat -> leqb (string_get m) (s2l "**TIFL**") = leqb m (s2l "**TIFL**").
Proof.
  intros L. unfold string_get. destruct (rstrip0_split m) as [n E].
  assert (Ln : (length (rstrip0 m) + n = 8)%nat) by (rewrite E in L; now rewrite app_length, zeros_length in L).
  destruct n as [|n]; [change (zeros 0) with (@nil Z) in E; rewrite app_nil_r in E; now rewrite <- E|].
  transitivity false; [|symmetry]; apply leqb_false.
  - intros X. rewrite X in Ln. cbn in Ln. lia.
  - intros X. assert (Y : last m 1 = 0).
    { rewrite E. replace (zeros (S n)) with (zeros n ++ [0]) by (unfold zeros; now rewrite <- repeat_cons).
      now rewrite app_assoc, last_last. }
    rewrite X in Y. discriminate.
Qed.
Lemma devices_split (l : bytes) : (2 <= length l)%nat -> exists a b r, l = a :: b :: r.
Proof. destruct l as [|a [|b r]]; cbn; try lia. intros _. now exists a, b, r. Qed.
Lemma get_type_class t : flash_get_type t = class_of_type t.
Proof.
  unfold flash_get_type, class_of_type.
  destruct (t =? 35) eqn:E1; [apply Z.eqb_eq in E1; now subst|].
  destruct (t =? 36) eqn:E2; [apply Z.eqb_eq in E2; now subst|].
  destruct (t =? 37) eqn:E3; [apply Z.eqb_eq in E3; now subst|].
  destruct (t =? 62) eqn:E4; [apply Z.eqb_eq in E4; now subst|].
  destruct t as [|p|p]; try reflexivity.
  do 6 (destruct p as [p|p|]; try reflexivity; try discriminate).
Qed.
Lemma own_type c ty : c <> FHeader ->
  match flash_type_id c with Some own => if negb (ty =? own) then [WFlashType] else [] | None => [] end =
  match class_of_type ty with
         | Some c' => if match c, c' with
                         | FOperatingSystem, FOperatingSystem | FApp, FApp | FCertificate, FCertificate
                         | FLicense, FLicense => true
                         | _, _ => false
                         end then [] else [WFlashType]
         | None => [WFlashType]
         end.
Proof.
  intros N. rewrite <- get_type_class. unfold flash_get_type.
  destruct c; try congruence; cbn [flash_type_id];
  (destruct (ty =? 35) eqn:E1; [apply Z.eqb_eq in E1; now subst|]);
  (destruct (ty =? 36) eqn:E2; [apply Z.eqb_eq in E2; now subst|]);
  (destruct (ty =? 37) eqn:E3; [apply Z.eqb_eq in E3; now subst|]);
  (destruct (ty =? 62) eqn:E4; [apply Z.eqb_eq in E4; now subst|]); reflexivity.
Qed.
Lemma memb_devices d : memb d device_types = (d =? 115) || (d =? 116) || (d =? 136) || (d =? 152).
Proof. unfold device_types, memb. cbn [existsb]. now rewrite orb_false_r, !orb_assoc. Qed.

Lemma own_type_all c ty :
  match flash_type_id c with Some own => if negb (ty =? own) then [WFlashType] else [] | None => [] end =
  match c with
  | FHeader => []
  | _ => match class_of_type ty with
         | Some c' => if match c, c' with
                         | FOperatingSystem, FOperatingSystem | FApp, FApp | FCertificate, FCertificate
                         | FLicense, FLicense => true
                         | _, _ => false
                         end then [] else [WFlashType]
         | None => [WFlashType]
         end
  end.
Proof.
  destruct c; [reflexivity| | | |];
  [apply (own_type FOperatingSystem)|apply (own_type FApp)|apply (own_type FCertificate)|apply (own_type FLicense)]; discriminate.
Qed.

(** The loader, step by step. *)
Lemma h_load_extra c has i x : image_ok i -> x = [] \/ i_tail i <> [] ->
  h_load c has (image_bytes i ++ x) = (image_warnings c i, Ok (image_header c has i)).
Proof.
  destruct i as [magic rev flag obj date nl name devs prod data tail].
  unfold image_ok, image_bytes, image_head, image_warnings, image_header.
  cbn [i_magic i_revision i_flag i_object i_date i_name_length i_name i_devices i_product i_data i_tail].
  intros (L1 & L2 & L3 & L4 & T4 & L5 & T5 & W5 & L6 & L7) Hx.
  destruct (devices_split devs) as [d0 [d1 [dr Ed]]]; [lia|]. subst devs. cbn [skipn nth] in *. cbn [length] in L5.
  assert (Ld : (length dr <= 23)%nat) by lia.
  assert (Wd : is_byte d1) by (inversion W5 as [|? ? ? W']; now inversion W').
  assert (Ep : nul_padded 25 (d0 :: d1 :: dr) = [d0] ++ [d1] ++ nul_padded 23 dr) by reflexivity.
  rewrite Ep. clear Ep. rewrite <- !app_assoc. change ([flag; obj] ++ ?x) with ([flag] ++ [obj] ++ x).
  unfold h_load.
  rewrite (rd_app 8) by auto. rewrite magic_strip by auto.
  rewrite (rd_app 2) by auto. rewrite (rd_app 1) by auto. rewrite (rd_app 1) by auto.
  rewrite (rd_app 4) by auto. rewrite (rd_app 1) by auto. rewrite (rd_app 31) by now apply nul_padded_length.
  rewrite (rd_app 1) by auto. rewrite (rd_app 1) by auto. rewrite (rd_app 23) by now apply nul_padded_length.
  rewrite (rd_app 1) by auto. rewrite (rd_app 4) by auto.
  pose proof (zlen_nonneg data). rewrite le_int_le32 by lia. rewrite to_nat_zlen.
  rewrite (rd_app (length data)) by auto. 
  assert (RT : exists y, rd 2 (tail ++ x) = (tail, y)).
  { destruct L7 as [L7|L7]; [|exists x; now apply rd_app].
    destruct tail; [|discriminate]. destruct Hx as [->|Hx]; [|congruence]. now exists []. }
  destruct RT as [y RT]. rewrite RT. clear RT y Hx.
  unfold nul_padded. rewrite !trimmed_rstrip by auto. rewrite (trimmed_rstrip0 name T4).
  rewrite Z.eqb_refl. rewrite device_type_at.
  change (py_index [nl] 0) with (@Ok Z nl). change (olift (Ok ?x)) with (oret x).
  rewrite !obind_oret. rewrite memb_devices.
  change ([d0] ++ [d1] ++ dr) with (d0 :: d1 :: dr). change ([d0] ++ [d1]) with [d0; d1].
  rewrite type_id_at by auto.
  assert (OW : forall (b : bool) w, owarn_if (negb b) w = (if b then [] else [w], Ok tt)) by (intros [] w; reflexivity).
  rewrite !OW. change (if true then [] else [WFlashSize]) with (@nil warning).
  generalize (if leqb magic (s2l "**TIFL**") then [] else [WFlashMagic]) (if nl =? zlen name then [] else [WFlashName])
    (if (d0 =? 115) || (d0 =? 116) || (d0 =? 136) || (d0 =? 152) then [] else [WFlashDevice]).
  intros A B D.
  assert (CO : forall k,
    h_coerce (FH c magic rev [flag] [obj] date name (d0 :: d1 :: dr) [prod] data k) =
    (match c with
     | FHeader => match class_of_type d1 with Some _ => [] | None => if d1 =? 255 then [WTypeFF] else [WTypeUnknown] end
     | _ => []
     end,
     Ok (FH (match c with FHeader => match class_of_type d1 with Some c' => c' | None => FHeader end | _ => c end)
            magic rev [flag] [obj] date name (d0 :: d1 :: dr) [prod] data k))).
  { intros k. unfold h_coerce. rewrite type_id_at by auto. cbn [h_cls].
    unfold olift. destruct c; try reflexivity. cbn [flash_type_id]. rewrite obind_ret_l, get_type_class.
    destruct (class_of_type d1); [reflexivity|].
    destruct (d1 =? 255); reflexivity. }
  rewrite <- (own_type_all c d1).
  rewrite !CO. rewrite checksum_data.
  set (Y := match c with FHeader => match class_of_type d1 with Some _ => [] | None => _ end | _ => [] end).
  set (CL := match c with FHeader => match class_of_type d1 with Some c' => c' | None => FHeader end | _ => c end).
  assert (TY : forall X (f : unit -> out X), obind
     match flash_type_id c with
     | Some own => do t := oret d1 in owarn_if (negb (t =? own)) WFlashType
     | None => oret tt
     end f = obind (match flash_type_id c with Some own => if negb (d1 =? own) then [WFlashType] else [] | None => [] end, Ok tt) f).
  { intros X f. destruct (flash_type_id c); reflexivity. }
  rewrite TY. clear TY.
  generalize (match flash_type_id c with Some own => if negb (d1 =? own) then [WFlashType] else [] | None => [] end).
  intros T. cbn [h_data]. clearbody Y CL.
  destruct tail as [|t0 tr].
  - reflexivity.
  - change (leqb (t0 :: tr) []) with false. rewrite orb_false_l.
    destruct (leqb (t0 :: tr) (data_sum data)) eqn:E; unfold obind, olift; rewrite E; reflexivity.
Qed.
Lemma h_load_image c has i : image_ok i ->
  h_load c has (image_bytes i) = (image_warnings c i, Ok (image_header c has i)).
Proof. intros OK. rewrite <- (app_nil_r (image_bytes i)). apply h_load_extra; auto. Qed.

Lemma trimmed_length l : trimmed l -> length (rstrip0 l) = length l.
Proof. intros T. now rewrite trimmed_rstrip0. Qed.
(** Writing a header. *)
Lemma h_bytes_value h : zlen (h_name h) < 256 -> zlen (h_data h) < 2 ^ 32 ->
  h_bytes h = Ok (h_magic h ++ h_revision h ++ h_flag h ++ h_object h ++ h_date h ++ [zlen (rstrip0 (h_name h))] ++
    h_name h ++ repeat 0 23 ++ h_devices h ++ repeat 0 23 ++ h_product h ++ le32 (zlen (h_data h)) ++ h_data h ++
    (if h_check h then data_sum (h_data h) else [])).
Proof.
  intros Ln Ld. unfold h_bytes, h_raw_bytes, h_name_length.
  pose proof (rstrip0_length (h_name h)) as Hr. pose proof (zlen_nonneg (h_data h)).
  rewrite byte_of_ok by (unfold is_byte, zlen in *; lia).
  unfold to_bytes_le. rewrite (proj2 (fits_spec 4 _)) by (change (256 ^ Z.of_nat 4) with (2 ^ 32); lia).
  rewrite <- le32_le_bytes by lia. rewrite checksum_data. cbn [rbind]. f_equal.
  destruct (h_check h); [reflexivity|].
  set (D := data_sum (h_data h)). assert (LD : length D = 2%nat) by reflexivity. clearbody D.
  change (zeros 23) with (repeat 0 23).
  assert (G : forall X : bytes, py_slice (X ++ D) None (Some (-2)) = X).
  { intros X. unfold py_slice, slice_start, slice_stop, norm_idx. cbn [Z.ltb Z.compare].
    rewrite zlen_app. assert (zlen D = 2) by (unfold zlen; lia). pose proof (zlen_nonneg X).
    replace (Z.max (-2 + (zlen X + zlen D)) 0) with (zlen X) by lia. rewrite Z.sub_0_r, to_nat_zlen.
    change (Z.to_nat 0) with 0%nat; cbn [skipn]. now rewrite firstn_app_exact. }
  rewrite app_nil_r. rewrite !app_assoc. rewrite G. now rewrite <- !app_assoc.
Qed.
Lemma image_header_bytes c i : image_ok i ->
  h_bytes (image_header c true i) = Ok (i_magic i ++ i_revision i ++ [i_flag i] ++ [i_object i] ++ i_date i ++ [zlen (i_name i)] ++
    i_name i ++ repeat 0 23 ++ i_devices i ++ repeat 0 23 ++ [i_product i] ++ le32 (zlen (i_data i)) ++ i_data i ++
    match i_tail i with [] => [] | _ => data_sum (i_data i) end).
Proof.
  intros (L1 & L2 & L3 & L4 & T4 & L5 & T5 & W5 & L6 & L7).
  rewrite h_bytes_value.
  - unfold image_header. cbn [h_magic h_revision h_flag h_object h_date h_name h_devices h_product h_data h_check].
    rewrite (trimmed_rstrip0 _ T4). destruct (i_tail i); reflexivity.
  - cbn [image_header h_name]. unfold zlen. lia.
  - exact L6.
Qed.
Lemma ok_inj {A} (a b : A) : Ok a = Ok b -> a = b. Proof. congruence. Qed.
Lemma app_cancel {A} (p a b : list A) : p ++ a = p ++ b <-> a = b.
Proof. split; [apply app_inv_head|congruence]. Qed.
Lemma nth_repeat0 n k : nth k (repeat 0 n) 0 = 0.
Proof. revert k. induction n; destruct k; simpl; auto. Qed.

Lemma round_trip_iff c i : image_ok i ->
  (h_bytes (image_header c true i) = Ok (image_bytes i) <->
   length (i_name i) = 8%nat /\ length (i_devices i) = 2%nat /\ i_name_length i = 8 /\
   (i_tail i = [] \/ i_tail i = data_sum (i_data i))).
Proof.
  intros OK. rewrite image_header_bytes by auto. destruct OK as (L1 & L2 & L3 & L4 & T4 & L5 & T5 & W5 & L6 & L7).
  destruct i as [magic rev flag obj date nl name devs prod data tail]. unfold image_bytes, image_head.
  cbn [i_magic i_revision i_flag i_object i_date i_name_length i_name i_devices i_product i_data i_tail] in *.
  unfold nul_padded. rewrite <- !app_assoc. change ([flag; obj] ++ ?x) with ([flag] ++ [obj] ++ x).
  split.
  - intros E. apply ok_inj in E. do 5 apply app_inv_head in E.
    pose proof (f_equal (hd 0) E) as E0. cbn [app hd] in E0. apply (f_equal (@tl Z)) in E.
    change (tl ([zlen name] ++ ?x)) with x in E. change (tl ([nl] ++ ?x)) with x in E. apply app_inv_head in E.
    assert (LT : length match tail with [] => [] | _ => data_sum data end = length tail)
      by (destruct tail; cbn [length] in *; [reflexivity|rewrite data_sum_length; lia]).
    pose proof (f_equal (@length Z) E) as EL. rewrite !app_length, !repeat_length in EL. cbn [length] in EL.
    rewrite LT in EL. cbn [le32 length] in EL.
    assert (NM : (length name + length devs = 10)%nat) by lia.
    assert (N8 : length name = 8%nat).
    { destruct (Nat.eq_dec (length name) 8) as [|N]; [assumption|exfalso].
      destruct T5 as [T5|[r [x [T5 Hx]]]].
      { apply (f_equal (@length Z)) in T5. rewrite skipn_length in T5. cbn in T5. lia. }
      apply Hx. clear Hx. apply (f_equal (fun l => nth (31 - length name + (length devs - 1)) l 0)) in E.
      rewrite (app_nth2 (repeat 0 (31 - length name))) in E by (rewrite repeat_length; lia).
      rewrite repeat_length in E. replace (31 - length name + (length devs - 1) - (31 - length name))%nat with (length devs - 1)%nat in E by lia.
      rewrite (app_nth1 devs) in E by lia.
      rewrite (app_nth2 (repeat 0 23)) in E by (rewrite repeat_length; lia). rewrite repeat_length in E.
      rewrite (app_nth2 devs) in E by lia. rewrite (app_nth1 (repeat 0 23)) in E by (rewrite repeat_length; lia).
      rewrite nth_repeat0 in E. rewrite E.
      replace devs with (firstn 2 devs ++ r ++ [x]) by (rewrite <- T5; apply firstn_skipn).
      rewrite app_assoc, app_length. cbn [length]. rewrite app_nth2 by lia.
      replace (_ - _)%nat with 0%nat by lia. reflexivity. }
    assert (M2 : length devs = 2%nat) by lia. rewrite N8, M2 in E. cbn [Nat.sub] in E. do 3 apply app_inv_head in E.
    do 2 apply app_inv_head in E.
    repeat split; auto; [unfold zlen in E0; lia|]. apply app_inv_head in E. destruct tail; auto.
  - intros (N8 & M2 & -> & T). rewrite N8, M2. unfold zlen at 1. rewrite N8. cbn [Nat.sub Z.of_nat]. 
    destruct T as [->| ->]; [reflexivity|]. destruct (data_sum data) eqn:E; [discriminate|]. reflexivity.
Qed.

(** * Constructed headers *)
Lemma section_width n m w x : section_set_raw (Some n) m = (w, Ok x) -> length x = n.
Proof.
  intros E. unfold section_set_raw in E. apply obind_ok in E. destruct E as (w1 & v & w2 & _ & E & _).
  unfold fit_section in E.
  destruct (Nat.ltb n (length v)) eqn:L; cbn in E; injection E as _ <-; apply ljust_length;
  [apply Nat.ltb_lt in L; rewrite firstn_length|apply Nat.ltb_ge in L]; lia.
Qed.
Lemma one {A} (l : list A) : length l = 1%nat -> exists a, l = [a].
Proof. destruct l as [|a [|b l]]; intros E; try discriminate E. now exists a. Qed.
Lemma bytes_of_inv l r : bytes_of l = Ok r -> r = l /\ wf_bytes l.
Proof.
  revert r. induction l as [|v l IH]; cbn [bytes_of]; intros r E.
  - apply ok_inj in E. subst. split; [reflexivity|constructor].
  - destruct (is_byteb v) eqn:B; [|discriminate E]. destruct (bytes_of l) as [t|]; [|discriminate E].
    apply ok_inj in E. destruct (IH t eq_refl) as [-> W]. subst. split; [reflexivity|]. constructor; [now apply is_byteb_spec|assumption].
Qed.
Lemma h_new_fields c magic revision bf ot date name dt pid data w h :
  h_new c magic revision bf ot date name dt pid data = (w, Ok h) ->
  exists f o p, h = FH c (h_magic h) (h_revision h) [f] [o] (h_date h) (h_name h)
    [dt; match flash_type_id c with Some t => t | None => 255 end] [p] data true /\
  length (h_magic h) = 8%nat /\ length (h_revision h) = 2%nat /\ length (h_date h) = 4%nat /\ length (h_name h) = 31%nat /\
  is_byte dt.
Proof.
  intros E. unfold h_new in E.
  apply obind_ok in E. destruct E as (? & m & ? & Em & E & _). apply section_width in Em.
  apply obind_ok in E. destruct E as (? & r & ? & Er & E & _). apply section_width in Er.
  apply obind_ok in E. destruct E as (? & f & ? & Ef & E & _). apply section_width, one in Ef. destruct Ef as [f' ->].
  apply obind_ok in E. destruct E as (? & o & ? & Eo & E & _). apply section_width, one in Eo. destruct Eo as [o' ->].
  apply obind_ok in E. destruct E as (? & d & ? & Ed & E & _). apply section_width in Ed.
  apply obind_ok in E. destruct E as (? & n & ? & En & E & _). apply section_width in En.
  apply obind_ok in E. destruct E as (? & v & ? & Ev & E & _).
  apply obind_ok in E. destruct E as (? & p & ? & Ep & E & _). apply section_width, one in Ep. destruct Ep as [p' ->].
  injection E as _ <-. exists f', o', p'.
  cbn [h_magic h_revision h_date h_name].
  unfold section_set_raw, fit_section, devices_set in Ev. apply obind_ok in Ev. destruct Ev as (? & v' & ? & Ev & E & _).
  injection E as _ <-. unfold olift in Ev. apply (f_equal snd) in Ev. cbn [snd] in Ev. apply bytes_of_inv in Ev. destruct Ev as [-> Wv].
  cbn [flat_map fst snd app] in Wv. assert (is_byte dt) by now inversion Wv. split; [reflexivity|]. auto 10.
Qed.
Lemma repeat_snoc n : repeat 0 (S n) = repeat 0 n ++ [0].
Proof. now rewrite <- repeat_cons. Qed.
Lemma pad_rstrip n l : length l = n -> nul_padded n (rstrip0 l) = l.
Proof. intros <-. exact (rstrip0_ljust l). Qed.
Lemma rstrip0_trimmed l : trimmed (rstrip0 l).
Proof.
  destruct (rstrip0 l) as [|a r] eqn:E; [now left|right]. exists (removelast (a :: r)), (last (a :: r) 1). split.
  - rewrite <- app_removelast_last by discriminate. reflexivity.
  - apply rstrip0_last; [discriminate|]. rewrite <- E. apply rstrip0_idem.
Qed.
(** Reading back what a constructed header writes: the two runs of 23 NULs are taken for the
    device field and the size. *)
Lemma constructed_reload c c' has magic revision bf ot date name dt pid data w h :
  h_new c magic revision bf ot date name dt pid data = (w, Ok h) -> zlen data < 2 ^ 32 ->
  exists b w' h', h_bytes h = Ok b /\ zlen b = h_len h + 23 /\
    h_load c' has b = (w', Ok h') /\ h_data h' = [] /\ nth 0 (h_devices h') 1 = 0 /\ In WFlashDevice w'.
Proof.
  intros E Ld. apply h_new_fields in E. destruct E as (f & o & p & Eh & Lm & Lr & Ldt & Ln & Bd).
  set (ty := match flash_type_id c with Some t => t | None => 255 end) in *.
  assert (Bt : is_byte ty) by (unfold ty, is_byte; destruct c; cbn; lia). clearbody ty.
  rewrite Eh. rewrite h_bytes_value by (cbn [h_name h_data]; unfold zlen in *; lia).
  cbn [h_magic h_revision h_flag h_object h_date h_name h_devices h_product h_data h_check].
  clear Eh. generalize dependent (h_magic h). generalize dependent (h_revision h). generalize dependent (h_date h). generalize dependent (h_name h).
  clear h. intros nm Ln d Ld' r Lr m Lm.
  set (i := Image m r f o d (zlen (rstrip0 nm)) (rstrip0 nm) ([0; 0] ++ rstrip0 (zeros 21 ++ [dt; ty])) 0 [] [0; 0]).
  set (x := zeros 16 ++ [p] ++ le32 (zlen data) ++ data ++ data_sum data).
  assert (Li : (length (rstrip0 (zeros 21 ++ [dt; ty])) <= 23)%nat)
    by (etransitivity; [apply rstrip0_length|]; reflexivity).
  assert (OK : image_ok i).
  { unfold image_ok, i. cbn [i_magic i_revision i_date i_name i_devices i_data i_tail].
    repeat match goal with |- _ /\ _ => split end; auto.
    - etransitivity; [apply rstrip0_length|]. lia.
    - apply rstrip0_trimmed.
    - cbn [app length]. lia.
    - cbn [app length]. lia.
    - apply rstrip0_trimmed.
    - apply wf_bytes_app. split; [repeat (constructor; [unfold is_byte; lia|]); constructor|].
      destruct (rstrip0_split (zeros 21 ++ [dt; ty])) as [k Hk].
      assert (W : wf_bytes (zeros 21 ++ [dt; ty])).
      { apply wf_bytes_app. split; [apply (wf_zeros 21)|]. repeat (constructor; [assumption|]). constructor. }
      rewrite Hk in W. now apply wf_bytes_app in W.
    - reflexivity. }
  exists (image_bytes i ++ x), (image_warnings c' i), (image_header c' has i).
  split; [|split; [|split; [|split; [|split]]]].
  - f_equal. unfold image_bytes, image_head, i, x.
    cbn [i_magic i_revision i_flag i_object i_date i_name_length i_name i_devices i_product i_data i_tail].
    rewrite pad_rstrip by auto.
    replace (nul_padded 25 ([0; 0] ++ rstrip0 (zeros 21 ++ [dt; ty]))) with ([0; 0] ++ zeros 21 ++ [dt; ty])
      by (rewrite <- (pad_rstrip 23 (zeros 21 ++ [dt; ty])) at 1 by reflexivity; reflexivity).
    rewrite <- !app_assoc. reflexivity.
  - unfold h_len. cbn [h_data h_check]. unfold image_bytes, image_head, i, x.
    cbn [i_magic i_revision i_flag i_object i_date i_name_length i_name i_devices i_product i_data i_tail].
    rewrite pad_rstrip by auto. unfold zlen. rewrite !app_length, !nul_padded_length by (cbn [app length]; lia).
    rewrite zeros_length. cbn [length le32 data_sum]. lia.
  - apply h_load_extra; [assumption|]. right. discriminate.
  - reflexivity.
  - reflexivity.
  - unfold image_warnings. apply in_or_app. right. apply in_or_app. right. apply in_or_app. left. left. reflexivity.
Qed.

(** * Hexadecimal text *)
Lemma nibble_check (P : Z -> bool) : forallb P (map Z.of_nat (seq 0 16)) = true -> forall d, 0 <= d < 16 -> P d = true.
Proof.
  intros F d H. rewrite forallb_forall in F. apply F. apply in_map_iff. exists (Z.to_nat d).
  split; [lia|]. apply in_seq. lia.
Qed.
Lemma byte_check (P : Z -> bool) : forallb P (map Z.of_nat (seq 0 256)) = true -> forall d, is_byte d -> P d = true.
Proof.
  intros F d H. unfold is_byte in H. rewrite forallb_forall in F. apply F. apply in_map_iff. exists (Z.to_nat d).
  split; [lia|]. apply in_seq. lia.
Qed.
Lemma hex_char_digit d : 0 <= d < 16 -> hex_char d = hex_digit d.
Proof. intros H. apply Z.eqb_eq. revert d H. apply (nibble_check (fun d => hex_char d =? hex_digit d)). vm_compute. reflexivity. Qed.
Lemma hex_val_char d : 0 <= d < 16 -> hex_val (hex_char d) = Some d.
Proof.
  intros H. assert (X : match hex_val (hex_char d) with Some e => e =? d | None => false end = true).
  { revert d H. apply (nibble_check (fun d => match hex_val (hex_char d) with Some e => e =? d | None => false end)). vm_compute. reflexivity. }
  destruct (hex_val (hex_char d)); [|discriminate X]. f_equal. now apply Z.eqb_eq.
Qed.
Lemma space_char d : 0 <= d < 16 -> ascii_space (hex_char d) = false.
Proof. intros H. apply negb_true_iff. revert d H. apply (nibble_check (fun d => negb (ascii_space (hex_char d)))). vm_compute. reflexivity. Qed.
Lemma char_low d : 0 <= d < 16 -> (128 <=? hex_char d) = false.
Proof. intros H. apply negb_true_iff. revert d H. apply (nibble_check (fun d => negb (128 <=? hex_char d))). vm_compute. reflexivity. Qed.
Lemma byte_nibbles b : is_byte b -> 0 <= b / 16 < 16 /\ 0 <= b mod 16 < 16 /\ 16 * (b / 16) + b mod 16 = b.
Proof. unfold is_byte. intros. lia. Qed.
Lemma hex_text_cons b l : hex_text (b :: l) = hex_char (b / 16) :: hex_char (b mod 16) :: hex_text l.
Proof. reflexivity. Qed.
Lemma hex_text_app a b : hex_text (a ++ b) = hex_text a ++ hex_text b.
Proof. apply flat_map_app. Qed.
Lemma hex_text_length l : length (hex_text l) = (2 * length l)%nat.
Proof. induction l; [reflexivity|]. rewrite hex_text_cons. cbn [length]. lia. Qed.
Lemma hex_text_zlen l : zlen (hex_text l) = 2 * zlen l.
Proof. unfold zlen. rewrite hex_text_length. lia. Qed.
Lemma hex_byte_text b : is_byte b -> hex_byte b = hex_text [b].
Proof. intros H. apply byte_nibbles in H. unfold hex_byte. cbn [hex_text flat_map app]. now rewrite !hex_char_digit by lia. Qed.
Lemma fromhex_text l : wf_bytes l -> fromhex (hex_text l) = Ok l.
Proof.
  induction l as [|b l IH]; intros W; [reflexivity|]. inversion W as [|? ? Wb Wl]. subst.
  apply byte_nibbles in Wb. destruct Wb as (H1 & H2 & H3).
  rewrite hex_text_cons. cbn [fromhex]. rewrite space_char, !hex_val_char by auto. rewrite IH by auto. cbn [rbind]. now rewrite H3.
Qed.
Lemma hex_text_inj a b : wf_bytes a -> wf_bytes b -> hex_text a = hex_text b -> a = b.
Proof. intros Wa Wb E. apply ok_inj. rewrite <- (fromhex_text a), <- (fromhex_text b) by auto. now rewrite E. Qed.
Lemma int16_text b : is_byte b -> int16 (hex_text [b]) = Ok b.
Proof.
  intros H. apply byte_nibbles in H. destruct H as (H1 & H2 & H3). cbn [hex_text flat_map app int16].
  rewrite !char_low, !hex_val_char by auto. cbn [orb]. now rewrite H3.
Qed.
Lemma wf_one b : is_byte b -> wf_bytes [b].
Proof. intros. constructor; [assumption|constructor]. Qed.
Lemma leqb_text a b : is_byte a -> is_byte b -> leqb (hex_text [a]) (hex_text [b]) = (a =? b).
Proof.
  intros Wa Wb. destruct (a =? b) eqn:E.
  - apply Z.eqb_eq in E. subst. apply leqb_refl.
  - apply leqb_false. intros X. apply hex_text_inj in X; [|now apply wf_one|now apply wf_one]. injection X as X. lia.
Qed.
Lemma known_type t : is_byte t ->
  existsb (leqb (hex_text [t])) [[48; 48]; [48; 49]; [48; 50]] = (t =? 0) || (t =? 1) || (t =? 2).
Proof.
  intros H. apply eqb_prop. revert t H.
  apply (byte_check (fun t => Bool.eqb (existsb (leqb (hex_text [t])) [[48; 48]; [48; 49]; [48; 50]]) ((t =? 0) || (t =? 1) || (t =? 2)))).
  vm_compute. reflexivity.
Qed.

(** * Blocks *)
Lemma zsum_cons a l : zsum (a :: l) = a + zsum l. Proof. reflexivity. Qed.
Lemma land8 n : Z.land n 255 = n mod 256.
Proof. change 255 with (Z.ones 8). rewrite Z.land_ones by lia. reflexivity. Qed.
Lemma intel_check_byte a t p : is_byte (intel_check a t p).
Proof. apply Z.mod_pos_bound. lia. Qed.
Lemma hex_fmt_text n : is_byte n -> hex_fmt n = hex_text [n].
Proof. intros H. unfold hex_fmt. unfold is_byte in H. replace (n <? 256) with true by lia. now apply hex_byte_text. Qed.
Lemma block_size_text a t p : intel_ok a t p -> block_size (intel_block a t p) = Ok (hex_text [zlen p]).
Proof.
  intros (Ha & Ht & Hp & Hl). unfold block_size, intel_block. cbn [k_data]. rewrite hex_text_zlen.
  rewrite (Z.mul_comm 2), Z.div_mul by lia. pose proof (zlen_nonneg p). now rewrite hex_fmt_text by (unfold is_byte; lia).
Qed.
Lemma block_checksum_text a t p : intel_ok a t p ->
  block_checksum (intel_block a t p) = Ok (hex_text [intel_check a t p]).
Proof.
  intros OK. pose proof OK as (Ha & Ht & Hp & Hl). pose proof (zlen_nonneg p).
  unfold block_checksum. rewrite block_size_text by auto. unfold block_data, intel_block. cbn [k_data k_address k_type rbind].
  rewrite <- !hex_text_app. rewrite fromhex_text.
  - cbn [rbind]. f_equal. rewrite land8. rewrite hex_byte_text by apply (Z.mod_pos_bound _ 256 eq_refl).
    do 2 f_equal. unfold intel_check. f_equal. cbn [app]. rewrite !zsum_cons. change (total p) with (zsum p). lia.
  - cbn [app]. repeat (constructor; [unfold is_byte in *; lia|]). assumption.
Qed.
Lemma block_bytes_text a t p : intel_ok a t p ->
  block_bytes (intel_block a t p) = Ok (intel_line a t p (intel_check a t p)).
Proof.
  intros OK. unfold block_bytes. rewrite block_size_text, block_checksum_text by auto.
  unfold block_data, intel_block. cbn [k_data k_address k_type rbind]. f_equal.
  rewrite <- !hex_text_app. unfold intel_line. reflexivity.
Qed.
Lemma block_load_text a t p ck x : intel_ok a t p -> is_byte ck ->
  block_load (intel_line a t p ck ++ x) =
    ((if (t =? 0) || (t =? 1) || (t =? 2) then [] else [WFlashBlockType]) ++
     (if ck =? intel_check a t p then [] else [WChecksum]), Ok (intel_block a t p)).
Proof.
  intros OK Hc. pose proof OK as (Ha & Ht & Hp & Hl). pose proof (zlen_nonneg p).
  assert (EL : skipn 1 (intel_line a t p ck ++ x) =
    hex_text [zlen p] ++ hex_text [a / 256; a mod 256] ++ hex_text [t] ++ hex_text p ++ hex_text [ck] ++ x).
  { unfold intel_line. cbn [skipn app]. change (zlen p :: a / 256 :: a mod 256 :: t :: p ++ [ck]) with ([zlen p] ++ [a / 256; a mod 256] ++ [t] ++ p ++ [ck]).
    rewrite !hex_text_app, <- !app_assoc. reflexivity. }
  unfold block_load. rewrite EL. clear EL.
  rewrite (rd_app 2) by apply hex_text_length. rewrite int16_text by (unfold is_byte; lia).
  unfold olift at 1. rewrite obind_ret_l.
  rewrite (rd_app 4) by apply hex_text_length. rewrite (rd_app 2) by apply hex_text_length.
  rewrite known_type by auto. replace (2 * zlen p <? 0) with false by lia.
  rewrite (rd_app (Z.to_nat (2 * zlen p))) by (rewrite hex_text_length; unfold zlen; lia).
  rewrite hex_text_zlen, Z.eqb_refl. rewrite (rd_app 2) by apply hex_text_length.
  fold (intel_block a t p). rewrite block_checksum_text by auto.
  destruct ((t =? 0) || (t =? 1) || (t =? 2)); destruct (ck =? intel_check a t p) eqn:E;
    unfold obind, olift, owarn_if, oret; rewrite (leqb_text _ _ Hc (intel_check_byte a t p)), E; reflexivity.
Qed.

(** * Dates and revisions *)
Lemma bcd_byte_pack v : bcd_byte (16 * (v / 10 mod 10) + v mod 10) = v mod 100.
Proof. unfold bcd_byte. lia. Qed.
Lemma date_set_value d m y : 0 <= d * 1000000 + m * 10000 + y < 100000000 ->
  date_set (d, m, y) (Some 4%nat) = Ok (rev (bcd_le 4 (d * 1000000 + m * 10000 + y))).
Proof.
  intros H. unfold date_set. change (100 ^ 3) with 1000000. change (100 ^ 2) with 10000.
  apply bcd_set_value. change (100 ^ Z.of_nat 4) with 100000000. lia.
Qed.
Lemma date_set_refuse d m y : ~ 0 <= d * 1000000 + m * 10000 + y < 100000000 ->
  date_set (d, m, y) (Some 4%nat) = Err OverflowError.
Proof.
  intros H. unfold date_set. change (100 ^ 3) with 1000000. change (100 ^ 2) with 10000.
  apply bcd_set_refuse. change (100 ^ Z.of_nat 4) with 100000000. lia.
Qed.
Lemma date_get_four a b c d : date_get [a; b; c; d] = (bcd_byte a, bcd_byte b, bcd_byte c * 100 + bcd_byte d).
Proof. unfold date_get, bcd_get. cbn [fold_left py_slice]. reflexivity. Qed.
Lemma date_read T : 0 <= T < 100000000 ->
  date_get (rev (bcd_le 4 T)) = (T / 1000000, T / 10000 mod 100, T mod 10000).
Proof.
  intros H. cbn [bcd_le rev app]. rewrite date_get_four, !bcd_byte_pack. f_equal; [f_equal|]; lia.
Qed.
Lemma revision_get_two a b : revision_get [a; b] = str_of_int (bcd_byte a) ++ [46] ++ str_of_int (bcd_byte b).
Proof. unfold revision_get, bcd_get. reflexivity. Qed.
Lemma split_dot_none s cur : ~ In 46 s -> split_dot s cur = [rev cur ++ s].
Proof.
  revert cur. induction s as [|c s IH]; intros cur N; cbn [split_dot]; [now rewrite app_nil_r|].
  destruct (c =? 46) eqn:E; [exfalso; apply N; left; lia|].
  rewrite IH by (intros X; apply N; now right). cbn [rev]. now rewrite <- app_assoc.
Qed.
Lemma split_dot_at s r cur : ~ In 46 s -> split_dot (s ++ 46 :: r) cur = (rev cur ++ s) :: split_dot r [].
Proof.
  revert cur. induction s as [|c s IH]; intros cur N; cbn [split_dot app].
  - rewrite Z.eqb_refl. now rewrite app_nil_r.
  - destruct (c =? 46) eqn:E; [exfalso; apply N; left; lia|].
    rewrite IH by (intros X; apply N; now right). cbn [rev]. now rewrite <- app_assoc.
Qed.
Lemma split_dot_length s cur : length (split_dot s cur) = S (count_occ Z.eq_dec s 46).
Proof.
  revert cur. induction s as [|c s IH]; intros cur; cbn [split_dot count_occ]; [reflexivity|].
  destruct (Z.eq_dec c 46) as [->|N]; [rewrite Z.eqb_refl; cbn [length]; now rewrite IH|].
  replace (c =? 46) with false by lia. apply IH.
Qed.
Lemma str_no_dot n : 0 <= n -> ~ In 46 (str_of_int n).
Proof.
  intros H X. unfold str_of_int in X. replace (n <? 0) with false in X by lia.
  apply in_map_iff in X. destruct X as (d & E & I). pose proof (digits_are_digits n H) as D.
  rewrite Forall_forall in D. specialize (D d I). unfold is_digit, char_of_digit in *. lia.
Qed.
Lemma revision_set_str x y n : 0 <= x -> 0 <= y ->
  revision_set (str_of_int x ++ 46 :: str_of_int y) n = bcd_set (100 * x + y) n.
Proof.
  intros Hx Hy. unfold revision_set. rewrite split_dot_at by now apply str_no_dot.
  rewrite split_dot_none by now apply str_no_dot. cbn [rev app]. now rewrite !parse_str_of_int by auto.
Qed.
Lemma revision_read T : 0 <= T < 10000 ->
  revision_get (rev (bcd_le 2 T)) = str_of_int (T / 100) ++ 46 :: str_of_int (T mod 100).
Proof. intros H. cbn [bcd_le rev app]. rewrite revision_get_two, !bcd_byte_pack. now replace (T / 100 mod 100) with (T / 100) by lia. Qed.
Lemma dec2_str n : 0 <= n < 100 -> str_of_int n = dec2 n.
Proof.
  intros H. apply leqb_spec.
  assert (F : forallb (fun n => leqb (str_of_int n) (dec2 n)) (map Z.of_nat (seq 0 100)) = true) by (vm_compute; reflexivity).
  rewrite forallb_forall in F. apply F. apply in_map_iff. exists (Z.to_nat n). split; [lia|]. apply in_seq. lia.
Qed.
Lemma devices_round l : Forall (fun p => is_byte (fst p) /\ is_byte (snd p)) l ->
  exists d, devices_set l = Ok d /\ devices_get d = l.
Proof.
  intros F. unfold devices_set. exists (flat_map (fun p => [fst p; snd p]) l). split.
  - apply bytes_of_ok. induction F as [|p l [A B] F IH]; cbn [flat_map app]; [constructor|]. do 2 (constructor; [assumption|]). assumption.
  - clear F. induction l as [|[a b] l IH]; [reflexivity|]. cbn [flat_map app fst snd devices_get]. now rewrite IH.
Qed.

(** * Streams of headers *)
Ltac same_stream :=
  match goal with |- (?a, Stream ?z ?x) = (?b, Stream ?z ?y) =>
    let H := fresh in let K := fresh in assert (H : a = b) by lia; assert (K : x = y) by lia; exact (f_equal2 pair H (f_equal (Stream z) K)) end.
Lemma next_length buf p : 0 <= le_int (firstn 4 (skipn (p + 74) buf)) -> (p + 78 <= length buf)%nat ->
  let size := le_int (firstn 4 (skipn (p + 74) buf)) in
  let rest := skipn (p + 78 + Z.to_nat size) buf in
  next_header_length (Stream buf p) =
    (78 + size + match rest with [] => 0 | _ => if leqb (firstn 8 rest) tifl then 0 else 2 end, Stream buf p).
Proof.
  intros Hs L. cbn zeta. unfold next_header_length, st_seek, st_read, st_rest. cbn [st_buf st_pos].
  replace (Z.to_nat (Z.max 0 (Z.of_nat p + 74))) with (p + 74)%nat by lia.
  set (b := firstn 4 (skipn (p + 74) buf)).
  assert (Lb : length b = 4%nat) by (unfold b; rewrite firstn_length, skipn_length; lia).
  fold b in Hs. set (size := le_int b) in *. rewrite Lb.
  replace (Z.to_nat (Z.max 0 (Z.of_nat (p + 74 + 4) + size))) with (p + 78 + Z.to_nat size)%nat by lia.
  set (r := skipn (p + 78 + Z.to_nat size) buf).
  destruct r as [|r0 r'] eqn:E.
  - cbn [firstn length st_buf st_pos]. same_stream.
  - assert (H8 : exists x y, firstn 8 (r0 :: r') = x :: y) by (exists r0, (firstn 7 r'); reflexivity).
    destruct H8 as (x & y & H8). rewrite H8. unfold tifl.
    destruct (leqb (x :: y) (s2l "**TIFL**")) eqn:X; cbn [st_buf st_pos].
    + apply leqb_spec in X. rewrite X. change (length (s2l "**TIFL**")) with 8%nat. same_stream.
    + unfold zlen. same_stream.
Qed.

Lemma image_head_length i : image_ok i -> length (image_head i) = 74%nat.
Proof.
  intros (L1 & L2 & L3 & L4 & T4 & L5 & T5 & W5 & L6 & L7). unfold image_head.
  rewrite !app_length, !nul_padded_length by lia. cbn [length]. lia.
Qed.
Lemma image_length i : image_ok i -> length (image_bytes i) = (78 + length (i_data i) + length (i_tail i))%nat.
Proof. intros OK. unfold image_bytes. rewrite !app_length, image_head_length by auto. cbn [le32 length]. lia. Qed.
Lemma image_starts i : image_ok i -> i_magic i = tifl -> exists r, image_bytes i = tifl ++ r.
Proof. intros OK E. unfold image_bytes, image_head. rewrite E, <- !app_assoc. eauto. Qed.
(** A rest of a file: nothing, or another header. *)
Definition header_next (rest : bytes) : Prop := rest = [] \/ exists r, rest = tifl ++ r.
Lemma file_next l : Forall (fun i => image_ok i /\ i_magic i = tifl) l -> header_next (flash_file l).
Proof.
  intros F. destruct F as [|i l [OK M] F]; [now left|right]. destruct (image_starts i OK M) as [r E].
  unfold flash_file. cbn [map concat]. rewrite E, <- app_assoc. eauto.
Qed.
Lemma next_image pre i rest : image_ok i -> header_next rest ->
  next_header_length (Stream (pre ++ image_bytes i ++ rest) (length pre)) =
    (zlen (image_bytes i), Stream (pre ++ image_bytes i ++ rest) (length pre)).
Proof.
  intros OK N. pose proof (image_length i OK) as LI. pose proof (zlen_nonneg (i_data i)) as Hd.
  assert (Es : firstn 4 (skipn (length pre + 74) (pre ++ image_bytes i ++ rest)) = le32 (zlen (i_data i))).
  { rewrite skipn_app, (skipn_ge pre) by lia. replace (length pre + 74 - length pre)%nat with 74%nat by lia.
    unfold image_bytes. rewrite <- !app_assoc. cbn [app]. rewrite skipn_app_exact by now apply image_head_length. reflexivity. }
  assert (Ls : le_int (le32 (zlen (i_data i))) = zlen (i_data i)) by (apply le_int_le32; destruct OK; tauto).
  pose proof (next_length (pre ++ image_bytes i ++ rest) (length pre)) as NL. cbn zeta in NL. rewrite Es, Ls in NL.
  rewrite NL; [|lia|rewrite !app_length; lia]. clear NL. f_equal.
  assert (Er : skipn (length pre + 78 + Z.to_nat (zlen (i_data i))) (pre ++ image_bytes i ++ rest) = i_tail i ++ rest).
  { rewrite skipn_app, (skipn_ge pre) by lia. rewrite to_nat_zlen. replace (length pre + 78 + length (i_data i) - length pre)%nat with (78 + length (i_data i))%nat by lia.
    unfold image_bytes. rewrite (app_assoc _ _ (i_data i ++ i_tail i)), (app_assoc _ (i_data i)), <- app_assoc. cbn [app].
    apply skipn_app_exact. rewrite !app_length, image_head_length by auto. cbn [le32 length]. lia. }
  rewrite Er. destruct OK as (_ & _ & _ & _ & _ & _ & _ & _ & _ & [LT|LT]).
  - destruct (i_tail i); [|discriminate]. cbn [app]. unfold zlen in *. rewrite LI. cbn [length].
    destruct N as [->|[r ->]]; [lia|]. change (tifl ++ r) with (42 :: (tl tifl ++ r)). cbn iota.
    change (42 :: (tl tifl ++ r)) with (tifl ++ r). rewrite firstn_app_exact by reflexivity. rewrite leqb_refl. lia.
  - destruct (i_tail i) as [|a [|b [|]]]; try discriminate. cbn [app]. unfold zlen in *. rewrite LI. cbn [length].
    replace (leqb (firstn 8 (a :: b :: rest)) tifl) with false; [lia|]. symmetry. apply leqb_false. intros X.
    destruct N as [->|[r ->]]; discriminate X.
Qed.
Lemma select_image pre k l : Forall (fun i => image_ok i /\ i_magic i = tifl) l -> forall i, nth_error l k = Some i ->
  select_header k (Stream (pre ++ flash_file l) (length pre)) = image_bytes i.
Proof.
  revert pre l. induction k as [|k IH]; intros pre l F i E; destruct F as [|j l [OK M] F]; try discriminate E.
  - injection E as ->. unfold flash_file. cbn [map concat]. fold (flash_file l). cbn [select_header].
    rewrite next_image by (auto using file_next). unfold st_read, st_rest. cbn [fst st_buf st_pos].
    rewrite skipn_app_exact by reflexivity. rewrite to_nat_zlen. now apply firstn_app_exact.
  - cbn [nth_error] in E. unfold flash_file. cbn [map concat]. fold (flash_file l). cbn [select_header].
    rewrite next_image by (auto using file_next). unfold st_seek. cbn [st_buf st_pos].
    rewrite app_assoc. replace (Z.to_nat _) with (length (pre ++ image_bytes j)) by (rewrite app_length; unfold zlen; lia).
    now apply IH.
Qed.
Lemma open_file c has i l : Forall (fun i => image_ok i /\ i_magic i = tifl) (i :: l) ->
  h_open c has (flash_file (i :: l)) =
    (image_warnings c i ++ match l with [] => [] | _ => [WMultiple] end, Ok (image_header c has i)).
Proof.
  intros F. inversion F as [|? ? [OK M] F']. subst. unfold h_open, flash_file. cbn [map concat]. fold (flash_file l).
  pose proof (image_length i OK) as LI.
  replace (zlen (image_bytes i ++ flash_file l) <? 78) with false by (rewrite zlen_app; unfold zlen; lia).
  rewrite obind_oret. pose proof (next_image [] i (flash_file l) OK (file_next l F')) as N. cbn [app length] in N. rewrite N.
  unfold st_read, st_rest. cbn [st_buf st_pos skipn]. rewrite to_nat_zlen, firstn_app_exact by reflexivity.
  rewrite h_load_image by auto. rewrite Nat.add_0_l, skipn_app_exact by reflexivity.
  generalize (image_warnings c i) (image_header c has i). intros w h.
  destruct F' as [|j l [OKj Mj] F']; [cbn; now rewrite !app_nil_r|].
  destruct (image_starts j OKj Mj) as [r E]. unfold flash_file. cbn [map concat]. rewrite E, <- app_assoc.
  reflexivity.
Qed.

(** * Data in blocks *)
Lemma split_lines_end x cur : ~ In 13 x -> split_lines x cur = [rev cur ++ x].
Proof.
  revert cur. induction x as [|a x IH]; intros cur N; [cbn; now rewrite app_nil_r|].
  assert (Na : (a =? 13) = false) by (destruct (a =? 13) eqn:E; [exfalso; apply N; left; lia|reflexivity]).
  assert (S : split_lines (a :: x) cur = split_lines x (a :: cur)).
  { cbn [split_lines]. destruct x; [reflexivity|]. now rewrite Na. }
  rewrite S, IH by (intros X; apply N; now right). cbn [rev]. now rewrite <- app_assoc.
Qed.
Lemma split_lines_at x r cur : ~ In 13 x -> split_lines (x ++ 13 :: 10 :: r) cur = (rev cur ++ x) :: split_lines r [].
Proof.
  revert cur. induction x as [|a x IH]; intros cur N; [cbn; now rewrite app_nil_r|].
  assert (Na : (a =? 13) = false) by (destruct (a =? 13) eqn:E; [exfalso; apply N; left; lia|reflexivity]).
  assert (S : split_lines ((a :: x) ++ 13 :: 10 :: r) cur = split_lines (x ++ 13 :: 10 :: r) (a :: cur)).
  { cbn [split_lines app]. destruct x; cbn [app]; now rewrite Na. }
  rewrite S, IH by (intros X; apply N; now right). cbn [rev]. now rewrite <- app_assoc.
Qed.
Lemma split_join l : l <> [] -> Forall (fun x => ~ In 13 x) l -> split_lines (join_lines l) [] = l.
Proof.
  induction l as [|x l IH]; intros NE F; [congruence|]. inversion F as [|? ? Fx Fl]. subst.
  destruct l as [|y l]; [cbn [join_lines]; now apply split_lines_end|].
  change (join_lines (x :: y :: l)) with (x ++ 13 :: 10 :: join_lines (y :: l)). rewrite split_lines_at by auto.
  rewrite IH by (auto; discriminate). reflexivity.
Qed.
Lemma split_terminated l : Forall (fun x => ~ In 13 x) l ->
  split_lines (flat_map (fun x => x ++ [13; 10]) l) [] = l ++ [[]].
Proof.
  induction 1 as [|x l Fx F IH]; [reflexivity|]. cbn [flat_map]. rewrite <- app_assoc. cbn [app].
  rewrite split_lines_at by auto. now rewrite IH.
Qed.
Lemma hex_char_not_cr d : hex_char d <> 13.
Proof.
  unfold hex_char. intros E. assert (F : Forall (fun c => c <> 13) (s2l "0123456789ABCDEF")) by (vm_compute; repeat (constructor; [discriminate|]); constructor).
  rewrite Forall_forall in F. destruct (Nat.lt_ge_cases (Z.to_nat d) (length (s2l "0123456789ABCDEF"))) as [L|L].
  - now apply (F _ (nth_In _ 0 L)).
  - rewrite nth_overflow in E by exact L. discriminate.
Qed.
Lemma line_no_cr a t p ck : ~ In 13 (intel_line a t p ck).
Proof.
  unfold intel_line. intros [E|I]; [discriminate|]. unfold hex_text in I. apply in_flat_map in I.
  destruct I as (b & _ & [E|[E|[]]]); now apply hex_char_not_cr in E.
Qed.
