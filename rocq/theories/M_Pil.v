(** The PIL plugins for picture files.  tivars/PIL/common.py,
    tivars/PIL/TI8xiPlugin.py, TI8ciPlugin.py, TI8caPlugin.py.

    PIL itself is not modelled: an image to save is the flat sequence of its
    pixels, which is what [np.asarray(self.im)] yields, and what [_save] writes
    is the data [encode] returns.  A file opens when [_open] returns; its pixels
    are those of the array [decode] hands to [set_as_raw]. *)
From Verif Require Import PyBase M_Class M_Data M_Models M_Var M_List M_Pic M_File.

(** [accept]: the prefix is one of three magics.  common.py:14-15. *)
Definition accept (prefix : bytes) : bool :=
  let p := firstn 8 prefix in
  leqb p (s2l "**TI82**") || leqb p (s2l "**TI83**") || leqb p (s2l "**TI83F*").

(** [width] and [height] of a picture class.  picture.py:244-245, 299-300,
    378-379.  [TIMonoPicture] stands for every other class. *)
Definition pic_width (k : cls) : Z := match k with KTIPicture => 266 | KImage => 133 | _ => 96 end.
Definition pic_height (k : cls) : Z := match k with KTIPicture => 165 | KImage => 83 | _ => 63 end.
(** [pil_mode].  picture.py:250, 305, 384. *)
Definition pil_mode (k : cls) : str := match k with KTIPicture | KImage => s2l "RGB" | _ => s2l "L" end.
(** The default name of the constructors.  picture.py:261, 314, 394. *)
Definition pic_name (k : cls) : str := match k with KImage => s2l "Image1" | _ => s2l "Pic1" end.

(** [reshape((height, width))] or [reshape((height, width, 3))], and [tolist]:
    the rows in order; ValueError when the number of pixels is not the product.
    common.py:110; [np_shape] picture.py:252, 307, 386. *)
Definition reshape {A} (h w : nat) (px : list A) : result (list (list A)) :=
  if Nat.eqb (length px) (h * w) then Ok (chunks w px) else Err ValueError.

(** What [_open] comes to: size and mode, a warning raised as an exception, or
    another exception.  common.py:36-54. *)
Inductive opening := Opened (w h : Z) (mode : str) | Warned | Raised (x : exn).

Section Pil.
  Variable name_set : cls -> str -> out bytes.
  Variable prog_scan : bytes -> option bool.
  Variable order : model -> Z.
  Variable set_order : list model -> list model.

  (** [self._T()].  common.py:109; picture.py:260-265, 313-318, 393-398. *)
  Definition pic_fresh (k : cls) : out entry :=
    entry_new name_set pic_version prog_scan k true (pic_name k) None (Some true) [].
  (** [TIEncoder.encode], for the [load_array] of the class.  common.py:101-113. *)
  Definition encode {A} (k : cls) (load : entry -> list (list A) -> out entry) (px : list A) : out bytes :=
    do img := pic_fresh k in
    do arr := olift (reshape (Z.to_nat (pic_height k)) (Z.to_nat (pic_width k)) px) in
    do img := load img arr in
    do v := export name_set pic_version prog_scan img None None in
    olift (var_bytes v).
  (** The encoders of the three plugins.  TI8xiPlugin.py:21-26;
      TI8ciPlugin.py:21-26; TI8caPlugin.py:21-26. *)
  Definition encode_8xi (px : list Z) : out bytes := encode KMonoPicture mono_load px.
  Definition encode_8ci (px : list rgb) : out bytes := encode KTIPicture pic_load px.
  Definition encode_8ca (px : list rgb) : out bytes := encode KImage image_load px.

  (** [var = TIVar(); var.load_bytes(...)].  common.py:44-45, 85-86. *)
  Definition read_var (file : bytes) : out var :=
    do v := var_new None None in
    var_load name_set pic_version prog_scan order set_order v file.
  (** [var.entries[0]].  common.py:47, 87. *)
  Definition first_entry (v : var) : result entry :=
    match v_entries v with e :: _ => Ok e | [] => Err IndexError end.
  (** [TIImageFile._open]: under [simplefilter("error")] the first warning is
      raised, so nothing after it happens.  common.py:36-54. *)
  Definition pil_open (k : cls) (file : bytes) : opening :=
    match read_var file with
    | (_ :: _, _) => Warned
    | ([], Err x) => Raised x
    | ([], Ok v) =>
        match first_entry v with
        | Err x => Raised x
        | Ok e =>
            if issubclass (e_cls e) k then Opened (pic_width (e_cls e)) (pic_height (e_cls e)) (pil_mode (e_cls e))
            else Raised TypeError
        end
    end.
  (** [TIDecoder.decode]: the [array] of the first entry, by its class; classes
      other than pictures have no [array] of pixels (not modelled: TypeError).
      common.py:77-89. *)
  Definition decode_mono (file : bytes) : out (list (list Z)) :=
    do v := read_var file in
    do e := olift (first_entry v) in
    match e_cls e with
    | KMonoPicture => olift (mono_array (data e))
    | _ => oerr TypeError
    end.
  Definition decode_rgb (file : bytes) : out (list (list rgb)) :=
    do v := read_var file in
    do e := olift (first_entry v) in
    match e_cls e with
    | KTIPicture => olift (pic_array (data e))
    | KImage => olift (image_array (data e))
    | _ => oerr TypeError
    end.
End Pil.
