(** Property theorems C123-C126: the PIL plugins. *)
From Verif Require Import L_Base M_Data M_Flags M_Models M_Class M_Var M_List M_Pic M_File M_Pil S_Data L_Data S_Var L_Models L_Var L_VarFile L_List S_Pic L_Pic P_Var P_Pic L_Pil.

(** The token sheet gives the name [s] of class [k] at most eight bytes, without
    warning. *)
Definition names (ns : cls -> str -> out bytes) (k : cls) (s : str) : Prop :=
  exists nm, ns k s = oret nm /\ (length nm <= 8)%nat.

Lemma names_fit ns k : names ns k (pic_name k) -> exists nm, section_set_raw (Some 8%nat) (ns k (pic_name k)) = oret nm /\ length nm = 8%nat.
Proof.
  intros (nm & N & L). exists (ljust 8 nm). split; [now apply name_fits|]. now apply ljust_length.
Qed.
Lemma saved_writable n k nm v D : (n <= 3)%nat -> is_byte v -> (3 <= length D)%nat -> writable n (saved k nm v D).
Proof.
  intros H B L. split; [reflexivity|]. split; [exists v; split; [reflexivity|exact B]|]. split; [reflexivity|]. cbn [saved e_data b_data]. lia.
Qed.
Lemma accept_h0 rest : accept (header_bytes h0 ++ rest) = true.
Proof. reflexivity. Qed.

(** ** C123: monochrome pictures *)

(** An image of 96 by 63 pixels, given as the flat sequence of its pixels: the
    8xi plugin saves it without warning, accepts the file, opens it with the same
    size, and decodes every pixel (as black or white); the other plugins refuse
    the file with TypeError. *)
Theorem C123_mono : forall ns ps order so arr,
  names ns KEntry (s2l "UNNAMED") -> names ns KMonoPicture (s2l "Pic1") -> grid 63 96 arr ->
  exists file, encode_8xi ns ps (concat arr) = ([], Ok file) /\ accept file = true /\
    pil_open ns ps order so KMonoPicture file = Opened 96 63 (s2l "L") /\
    decode_mono ns ps order so file = ([], Ok (map (map (fun p => if p =? 0 then 0 else 255)) arr)) /\
    pil_open ns ps order so KTIPicture file = Raised TypeError /\
    pil_open ns ps order so KImage file = Raised TypeError.
Proof.
  intros ns ps order so arr (un & U & LU) NP G. destruct (names_fit ns KMonoPicture NP) as (nm & N & LN).
  destruct (encode_one ns ps KMonoPicture nm mono_load arr (fun w v P => w = [] /\ v = 0 /\ exists d, P = le16 756 ++ d /\ zlen d = 756 /\
    mono_array d = Ok (map (map (fun p => if p =? 0 then 0 else 255)) arr))) as (w & v & P & E & -> & -> & d & -> & L & A); auto.
  { now left. }
  { intros v0 D B LD. destruct (mono_load_spec (saved KMonoPicture nm v0 D) arr) as (d & E & L & A); [reflexivity|apply saved_writable; auto|exact G|].
    exists [], 0, (le16 756 ++ d). split; [exact E|]. split; [unfold is_byte; lia|]. split; [rewrite zlen_app, L; change (zlen (le16 756)) with 2; lia|]. split; [reflexivity|]. split; [reflexivity|]. exists d. auto. }
  eexists. split; [exact E|]. split; [apply accept_h0|].
  assert (R : read_var ns ps order so (file_image (header_bytes h0) [image_of (saved KMonoPicture nm 0 (le16 756 ++ d))]) = ([], Ok (Var h0 [saved KMonoPicture nm 0 (le16 756 ++ d)] None))).
  { eapply (read_saved ns ps order so KMonoPicture nm 0 756 d un); auto; [now left|lia]. }
  split; [unfold pil_open; rewrite R; reflexivity|]. split; [|split; unfold pil_open; rewrite R; reflexivity].
  assert (DA : data (saved KMonoPicture nm 0 (le16 756 ++ d)) = d) by exact (data_after (saved KMonoPicture nm 0 []) (le16 756) d eq_refl).
  unfold decode_mono. rewrite R, obind_ret_l. change (olift (first_entry _)) with (@oret entry (saved KMonoPicture nm 0 (le16 756 ++ d))). rewrite obind_oret.
  transitivity (olift (mono_array (data (saved KMonoPicture nm 0 (le16 756 ++ d))))); [reflexivity|]. rewrite DA, A. reflexivity.
Qed.
Print Assumptions C123_mono.

(** Pixels 0 and 255 come back exactly. *)
Theorem C123_exact : forall ns ps order so arr,
  names ns KEntry (s2l "UNNAMED") -> names ns KMonoPicture (s2l "Pic1") -> grid 63 96 arr ->
  Forall (Forall (fun p => p = 0 \/ p = 255)) arr ->
  exists file, encode_8xi ns ps (concat arr) = ([], Ok file) /\ decode_mono ns ps order so file = ([], Ok arr).
Proof.
  intros ns ps order so arr U N G F. destruct (C123_mono ns ps order so arr U N G) as (f & E & _ & _ & D & _). exists f. split; [exact E|]. rewrite D. do 2 f_equal.
  rewrite <- map_id. apply map_ext_in. intros row Hr. rewrite <- map_id. apply map_ext_in. intros p Hp.
  rewrite Forall_forall in F. specialize (F row Hr). rewrite Forall_forall in F. destruct (F p Hp) as [-> | ->]; reflexivity.
Qed.
Print Assumptions C123_exact.
Definition mono_arr : list (list Z) := repeat (repeat 0 40 ++ repeat 255 56) 63.
Lemma mono_arr_grid : grid 63 96 mono_arr.
Proof. split; [reflexivity|]. apply Forall_forall. intros x Hx. apply repeat_spec in Hx as ->. reflexivity. Qed.
Lemma names_ns0 k s : (length s <= 8)%nat -> names ns0 k s.
Proof. intros H. exists s. split; [reflexivity|exact H]. Qed.
Example C123_example : names ns0 KEntry (s2l "UNNAMED") /\ names ns0 KMonoPicture (s2l "Pic1") /\ grid 63 96 mono_arr /\
  exists file, encode_8xi ns0 ps0 (concat mono_arr) = ([], Ok file) /\ zlen file = 832 /\
    pil_open ns0 ps0 model_index so0 KMonoPicture file = Opened 96 63 (s2l "L") /\
    decode_mono ns0 ps0 model_index so0 file = ([], Ok mono_arr).
Proof.
  split; [apply names_ns0; cbn; lia|]. split; [apply names_ns0; cbn; lia|]. split; [exact mono_arr_grid|].
  eexists. split; [vm_compute; reflexivity|]. split; [vm_compute; reflexivity|]. split; [vm_compute; reflexivity|]. vm_compute. reflexivity.
Qed.

(** ** C124: colour pictures *)

(** An image of 266 by 165 pixels: the 8ci plugin saves it (warning only about
    colours outside the palette), opens the file without warning with the same
    size, and decodes every pixel as a nearest colour of the palette; an image in
    the palette comes back exactly. *)
Theorem C124_colour : forall ns ps order so arr,
  names ns KEntry (s2l "UNNAMED") -> names ns KTIPicture (s2l "Pic1") -> grid 165 266 arr ->
  exists w file arr', encode_8ci ns ps (concat arr) = (w, Ok file) /\ accept file = true /\
    pil_open ns ps order so KTIPicture file = Opened 266 165 (s2l "RGB") /\
    decode_rgb ns ps order so file = ([], Ok arr') /\ Forall2 (Forall2 nearest_to) arr arr' /\
    (Forall (Forall (fun c => In c palette)) arr -> arr' = arr) /\
    pil_open ns ps order so KMonoPicture file = Raised TypeError /\
    pil_open ns ps order so KImage file = Raised TypeError.
Proof.
  intros ns ps order so arr (un & U & LU) NP G. destruct (names_fit ns KTIPicture NP) as (nm & N & LN).
  destruct (encode_one ns ps KTIPicture nm pic_load arr (fun w v P => v = 10 /\ exists d arr', P = le16 21945 ++ d /\ zlen d = 21945 /\
    pic_array d = Ok arr' /\ Forall2 (Forall2 nearest_to) arr arr' /\ (Forall (Forall (fun c => In c palette)) arr -> arr' = arr)))
    as (w & v & P & E & -> & d & arr' & -> & L & A & F & X); auto.
  { right. now left. }
  { intros v0 D B LD. destruct (pic_load_spec (saved KTIPicture nm v0 D) arr) as (w & d & arr' & E & L & A & F & X); [reflexivity|apply saved_writable; auto|exact G|].
    exists w, 10, (le16 21945 ++ d). split; [exact E|]. split; [unfold is_byte; lia|]. split; [rewrite zlen_app, L; change (zlen (le16 21945)) with 2; lia|].
    split; [reflexivity|]. exists d, arr'. auto. }
  exists w. eexists. exists arr'. split; [exact E|]. split; [apply accept_h0|].
  assert (R : read_var ns ps order so (file_image (header_bytes h0) [image_of (saved KTIPicture nm 10 (le16 21945 ++ d))]) = ([], Ok (Var h0 [saved KTIPicture nm 10 (le16 21945 ++ d)] None))).
  { eapply (read_saved ns ps order so KTIPicture nm 10 21945 d un); auto; [right; now left|lia]. }
  split; [unfold pil_open; rewrite R; reflexivity|]. split; [|split; [exact F|split; [exact X|split; unfold pil_open; rewrite R; reflexivity]]].
  assert (DA : data (saved KTIPicture nm 10 (le16 21945 ++ d)) = d) by exact (data_after (saved KTIPicture nm 10 []) (le16 21945) d eq_refl).
  unfold decode_rgb. rewrite R, obind_ret_l. change (olift (first_entry _)) with (@oret entry (saved KTIPicture nm 10 (le16 21945 ++ d))). rewrite obind_oret.
  transitivity (olift (pic_array (data (saved KTIPicture nm 10 (le16 21945 ++ d))))); [reflexivity|]. rewrite DA, A. reflexivity.
Qed.
Print Assumptions C124_colour.
Definition pic_arr : list (list rgb) := repeat (repeat (0, 0, 255) 100 ++ repeat (255, 142, 32) 166) 165.
Lemma pic_arr_grid : grid 165 266 pic_arr.
Proof. split; [reflexivity|]. apply Forall_forall. intros x Hx. apply repeat_spec in Hx as ->. reflexivity. Qed.
Example C124_example : names ns0 KTIPicture (s2l "Pic1") /\ grid 165 266 pic_arr /\ Forall (Forall (fun c => In c palette)) pic_arr.
Proof.
  split; [apply names_ns0; cbn; lia|]. split; [exact pic_arr_grid|]. apply Forall_forall. intros x Hx. apply repeat_spec in Hx as ->.
  apply Forall_forall. intros y Hy. apply in_app_or in Hy as [Hy|Hy]; apply repeat_spec in Hy as ->; vm_compute; tauto.
Qed.

(** ** C125: images *)

(** C125 is false, of every image: the 8ca plugin saves an image without a
    warning, but the file it writes warns about its length when it is read, which
    [_open] turns into an error; so the plugin opens none of its own files, though
    the pixels are in them. *)
Theorem C125_image : forall ns ps order so arr,
  names ns KEntry (s2l "UNNAMED") -> names ns KImage (s2l "Image1") -> grid 83 133 arr -> Forall (Forall rgb_ok) arr ->
  exists file arr', encode_8ca ns ps (concat arr) = ([], Ok file) /\ accept file = true /\
    (forall k, pil_open ns ps order so k file = Warned) /\
    decode_rgb ns ps order so file = ([WPicLength], Ok arr') /\ Forall2 (Forall2 close) arr arr'.
Proof.
  intros ns ps order so arr (un & U & LU) NP G O. destruct (names_fit ns KImage NP) as (nm & N & LN).
  destruct (encode_one ns ps KImage nm image_load arr (fun w v P => w = [] /\ v = 0 /\ exists m d arr', P = le16 22244 ++ m :: d /\ zlen d = 22244 /\
    image_array d = Ok arr' /\ Forall2 (Forall2 close) arr arr'))
    as (w & v & P & E & -> & -> & m & d & arr' & -> & L & A & F); auto.
  { right. right. now left. }
  { intros v0 D B LD. destruct (image_load_spec (saved KImage nm v0 D) arr) as (m & d & E & L & _ & arr' & A & F); [reflexivity|apply saved_writable; auto|exact G|exact O|].
    exists [], 0, (le16 22244 ++ m :: d). split; [exact E|]. split; [unfold is_byte; lia|]. split; [rewrite zlen_app, zlen_cons, L; change (zlen (le16 22244)) with 2; lia|].
    split; [reflexivity|]. split; [reflexivity|]. exists m, d, arr'. auto. }
  eexists. exists arr'. split; [exact E|]. split; [apply accept_h0|].
  assert (R : read_var ns ps order so (file_image (header_bytes h0) [image_of (saved KImage nm 0 (le16 22244 ++ m :: d))]) = ([WPicLength], Ok (Var h0 [saved KImage nm 0 (le16 22244 ++ m :: d)] None))).
  { eapply (read_saved ns ps order so KImage nm 0 22244 (m :: d) un); auto; [right; right; now left|rewrite zlen_cons; lia]. }
  split; [intros k; unfold pil_open; rewrite R; reflexivity|]. split; [|exact F].
  assert (DA : data (saved KImage nm 0 (le16 22244 ++ m :: d)) = d) by exact (data_after (saved KImage nm 0 []) (le16 22244 ++ [m]) d eq_refl).
  unfold decode_rgb. rewrite R. 
  transitivity (obind ([WPicLength], Ok tt) (fun _ => olift (image_array (data (saved KImage nm 0 (le16 22244 ++ m :: d)))))); [reflexivity|]. rewrite DA, A. reflexivity.
Qed.
Print Assumptions C125_image.
(** The claim that the plugin opens what it saved, with a witness against it. *)
Theorem C125_open_refuted : exists arr file, grid 83 133 arr /\ Forall (Forall rgb_ok) arr /\
  encode_8ca ns0 ps0 (concat arr) = ([], Ok file) /\ pil_open ns0 ps0 model_index so0 KImage file = Warned.
Proof.
  destruct (C125_image ns0 ps0 model_index so0 img_arr) as (f & _ & E & _ & W & _);
    [apply names_ns0; cbn; lia|apply names_ns0; cbn; lia|apply img_arr_ok|apply img_arr_ok|].
  exists img_arr, f. split; [apply img_arr_ok|]. split; [apply img_arr_ok|]. split; [exact E|apply W].
Qed.
Print Assumptions C125_open_refuted.
Example C125_example : names ns0 KImage (s2l "Image1") /\ grid 83 133 img_arr /\ Forall (Forall rgb_ok) img_arr.
Proof. split; [apply names_ns0; cbn; lia|]. exact img_arr_ok. Qed.

(** ** C126: sizes and classes *)

(** An image is refused, and nothing is written, exactly when its number of
    pixels is not that of the format. *)
Theorem C126_count : forall ns ps k (A : Type) load (px : list A), In k [KMonoPicture; KTIPicture; KImage] ->
  names ns k (pic_name k) -> zlen px <> pic_width k * pic_height k ->
  encode ns ps k load px = ([], Err ValueError).
Proof.
  intros ns ps k A load px I N H. destruct (names_fit ns k N) as (nm & NF & _). unfold encode.
  destruct (fresh ns ps k nm I NF) as (v0 & D & -> & _). cbn [obind]. rewrite reshape_other; [reflexivity|].
  unfold zlen in H. destruct I as [<- | [<- | [<- | []]]]; cbn [pic_width pic_height] in *; lia.
Qed.
Print Assumptions C126_count.
(** But the size itself is not checked: an image 63 pixels wide and 96 high is
    saved, and the file opens as 96 by 63 with the rows cut up (a vertical black
    line becomes scattered points). *)
Definition tall : list (list Z) := repeat (0 :: repeat 255 62) 96.
Theorem C126_size_refuted : exists (arr : list (list Z)) file out, grid 96 63 arr /\
  encode_8xi ns0 ps0 (concat arr) = ([], Ok file) /\
  pil_open ns0 ps0 model_index so0 KMonoPicture file = Opened 96 63 (s2l "L") /\
  decode_mono ns0 ps0 model_index so0 file = ([], Ok out) /\ concat out = concat arr /\ grid 63 96 out.
Proof.
  exists tall. do 2 eexists. split; [split; [reflexivity|]; apply Forall_forall; intros x Hx; apply repeat_spec in Hx as ->; reflexivity|].
  split; [vm_compute; reflexivity|]. split; [vm_compute; reflexivity|]. split; [vm_compute; reflexivity|]. split; [vm_compute; reflexivity|].
  split; [reflexivity|]. match goal with |- Forall _ ?l => assert (X : forallb (fun row => Nat.eqb (length row) 96) l = true) by (vm_compute; reflexivity) end.
  rewrite forallb_forall in X. apply Forall_forall. intros x Hx. now apply Nat.eqb_eq, X.
Qed.
Print Assumptions C126_size_refuted.
Lemma sub_own c k : In k [KMonoPicture; KTIPicture; KImage] -> issubclass c k = true -> c = k.
Proof. intros [<- | [<- | [<- | []]]]; destruct c; vm_compute; (discriminate || reflexivity). Qed.
(** Whatever file a plugin opens, it reports the size and mode of its own format;
    so no file opens in two plugins. *)
Theorem C126_format : forall ns ps order so k file w h m, In k [KMonoPicture; KTIPicture; KImage] ->
  pil_open ns ps order so k file = Opened w h m ->
  (k, w, h, m) = (KMonoPicture, 96, 63, s2l "L") \/ (k, w, h, m) = (KTIPicture, 266, 165, s2l "RGB") \/ (k, w, h, m) = (KImage, 133, 83, s2l "RGB").
Proof.
  intros ns ps order so k file w h m I H. unfold pil_open in H.
  destruct (read_var ns ps order so file) as [[|? ?] [v|x]]; try discriminate H.
  destruct (first_entry v) as [e|x]; try discriminate H. destruct (issubclass (e_cls e) k) eqn:S; [|discriminate H].
  rewrite (sub_own _ _ I S) in H. injection H as <- <- <-. destruct I as [<- | [<- | [<- | []]]]; auto.
Qed.
Print Assumptions C126_format.
Theorem C126_unique : forall ns ps order so k k' file w h m w' h' m',
  In k [KMonoPicture; KTIPicture; KImage] -> In k' [KMonoPicture; KTIPicture; KImage] ->
  pil_open ns ps order so k file = Opened w h m -> pil_open ns ps order so k' file = Opened w' h' m' -> k = k'.
Proof.
  intros ns ps order so k k' file w h m w' h' m' I I' H H'. unfold pil_open in H, H'.
  destruct (read_var ns ps order so file) as [[|? ?] [v|x]]; try discriminate H.
  destruct (first_entry v) as [e|x]; try discriminate H.
  destruct (issubclass (e_cls e) k) eqn:S; [|discriminate H]. destruct (issubclass (e_cls e) k') eqn:S'; [|discriminate H'].
  rewrite <- (sub_own _ _ I S). now apply sub_own.
Qed.
Print Assumptions C126_unique.
(** A file without entries does not open and is not decoded. *)
Theorem C126_empty : forall ns ps order so k file v, read_var ns ps order so file = ([], Ok v) -> v_entries v = [] ->
  pil_open ns ps order so k file = Raised IndexError /\ decode_mono ns ps order so file = oerr IndexError /\ decode_rgb ns ps order so file = oerr IndexError.
Proof. intros ns ps order so k file v R E. unfold pil_open, decode_mono, decode_rgb, first_entry. rewrite R, !obind_ret_l, E. split; [reflexivity|split; reflexivity]. Qed.
(** A file that opens need not have pixels: the class is chosen by the length
    word of the picture, and a picture shorter than that opens without warning,
    then fails with IndexError when it is decoded. *)
Theorem C126_pixels_refuted : exists file, pil_open ns0 ps0 model_index so0 KMonoPicture file = Opened 96 63 (s2l "L") /\
  decode_mono ns0 ps0 model_index so0 file = ([], Err IndexError).
Proof.
  exists (file_image (header_bytes h0) [image_of (saved KMonoPicture ([96; 0] ++ zeros 6) 0 (le16 756 ++ [7]))]). split; vm_compute; reflexivity.
Qed.
Print Assumptions C126_pixels_refuted.
Example C126_example : encode_8xi ns0 ps0 (repeat 0 100) = ([], Err ValueError) /\
  (exists file, encode_8xi ns0 ps0 (concat mono_arr) = ([], Ok file) /\ pil_open ns0 ps0 model_index so0 KMonoPicture file = Opened 96 63 (s2l "L")) /\
  pil_open ns0 ps0 model_index so0 KMonoPicture (file_image (header_bytes h0) []) = Raised IndexError.
Proof.
  split; [vm_compute; reflexivity|]. split; [eexists; split; [vm_compute; reflexivity|]; vm_compute; reflexivity|]. vm_compute. reflexivity.
Qed.
