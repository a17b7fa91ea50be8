(** The entry classes of the library and their class attributes.
    Sources: /repo/tivars/var.py, /repo/tivars/types/*.py (lines cited below). *)
From Verif Require Import PyBase M_Models.

(** One constructor per class derived from [TIEntry].
    var.py:241 TIEntry, var.py:1296 SizedEntry; types/real.py:19, 209, 227, 315,
    325, 369, 602, 655; types/complex.py:89, 356, 378, 392, 412, 432;
    types/list.py:71, 206, 223; types/matrix.py:16; types/tokenized.py:18, 236,
    280, 290, 333, 441, 458, 470; types/picture.py:151, 229, 280, 357;
    types/gdb.py:151, 364, 716, 825, 945, 979, 1127, 1161, 1263, 1297, 1511;
    types/settings.py:16, 53, 296, 539; types/group.py:19; types/appvar.py:10. *)
Inductive cls :=
| KEntry | KSized
| KRealEntry | KGraphReal | KReal | KUndefReal | KRealFraction | KRealRadical | KRealPi | KRealPiFraction
| KComplexEntry | KComplex | KComplexFraction | KComplexRadical | KComplexPi | KComplexPiFraction
| KList | KRealList | KComplexList | KMatrix
| KTokenized | KEquation | KNewEquation | KString
| KProgram | KAsmProgram | KProtectedProgram | KProtectedAsmProgram
| KPicture | KMonoPicture | KTIPicture | KImage
| KGraphedEquation | KMonoGDB | KGDB | KMonoFunc | KFunc | KMonoParam | KParam
| KMonoPolar | KPolar | KMonoSeq | KSeq
| KSettings | KWindow | KRecallWindow | KTable
| KGroup | KAppVar.

Definition CLASSES : list cls :=
  [ KEntry; KSized; KRealEntry; KGraphReal; KReal; KUndefReal; KRealFraction; KRealRadical;
    KRealPi; KRealPiFraction; KComplexEntry; KComplex; KComplexFraction; KComplexRadical;
    KComplexPi; KComplexPiFraction; KList; KRealList; KComplexList; KMatrix; KTokenized;
    KEquation; KNewEquation; KString; KProgram; KAsmProgram; KProtectedProgram;
    KProtectedAsmProgram; KPicture; KMonoPicture; KTIPicture; KImage; KGraphedEquation;
    KMonoGDB; KGDB; KMonoFunc; KFunc; KMonoParam; KParam; KMonoPolar; KPolar; KMonoSeq; KSeq;
    KSettings; KWindow; KRecallWindow; KTable; KGroup; KAppVar ].

Scheme Equality for cls.
Definition cls_eqb := cls_beq.

(** [_type_id].  var.py:291; real.py:240, 322, 343, 393, 621, 668;
    complex.py:365, 389, 405, 425, 445; list.py:220, 236; matrix.py:37;
    tokenized.py:252, 287, 306, 364, 467, 479; picture.py:258, 311, 391;
    gdb.py:414; settings.py:69, 312, 555; group.py:38; appvar.py:25.
    (TIGraphedEquation inherits 0x03 from TIEquation.) *)
Definition type_id_of (c : cls) : option Z :=
  match c with
  | KEntry | KSized | KRealEntry | KGraphReal | KComplexEntry | KList | KTokenized
  | KPicture | KSettings => None
  | KReal => Some 0 | KUndefReal => Some 14 | KRealFraction => Some 24
  | KRealRadical => Some 28 | KRealPi => Some 32 | KRealPiFraction => Some 33
  | KComplex => Some 12 | KComplexFraction => Some 27 | KComplexRadical => Some 29
  | KComplexPi => Some 30 | KComplexPiFraction => Some 31
  | KRealList => Some 1 | KComplexList => Some 13 | KMatrix => Some 2
  | KEquation | KGraphedEquation => Some 3 | KNewEquation => Some 11 | KString => Some 4
  | KProgram | KAsmProgram => Some 5 | KProtectedProgram | KProtectedAsmProgram => Some 6
  | KMonoPicture | KTIPicture => Some 7 | KImage => Some 26
  | KMonoGDB | KGDB | KMonoFunc | KFunc | KMonoParam | KParam
  | KMonoPolar | KPolar | KMonoSeq | KSeq => Some 8
  | KWindow => Some 15 | KRecallWindow => Some 16 | KTable => Some 17
  | KGroup => Some 23 | KAppVar => Some 21
  end.

(** [TIEntry._type_ids] after importing tivars.types: registration order is the
    import order of types/__init__.py:9-19; [register] is var.py:647-655, the
    override 0x23 is gdb.py:151.  Only classes declared with [register=True]. *)
Definition registry : list (Z * cls) :=
  [ (21, KAppVar);
    (0, KReal); (14, KUndefReal); (24, KRealFraction); (28, KRealRadical); (32, KRealPi);
    (33, KRealPiFraction);
    (12, KComplex); (27, KComplexFraction); (29, KComplexRadical); (30, KComplexPi);
    (31, KComplexPiFraction);
    (3, KEquation); (11, KNewEquation); (4, KString); (5, KProgram); (6, KProtectedProgram);
    (35, KGraphedEquation); (8, KMonoGDB);
    (1, KRealList); (13, KComplexList);
    (23, KGroup); (2, KMatrix); (7, KTIPicture); (26, KImage);
    (15, KWindow); (16, KRecallWindow); (17, KTable) ].

(** [TIEntry.get_type].  var.py:616-625. *)
Fixpoint assoc_cls (r : list (Z * cls)) (id : Z) : option cls :=
  match r with [] => None | (k, c) :: t => if k =? id then Some c else assoc_cls t id end.
Definition get_type (id : Z) : option cls := assoc_cls registry id.

(** The proper base classes (transitively), from the class statements. *)
Definition supers (c : cls) : list cls :=
  match c with
  | KEntry => []
  | KSized => [KEntry]
  | KRealEntry => [KEntry]
  | KGraphReal => [KRealEntry; KEntry]
  | KReal => [KRealEntry; KEntry]
  | KUndefReal | KRealFraction => [KReal; KRealEntry; KEntry]
  | KRealRadical => [KRealEntry; KEntry]
  | KRealPi => [KReal; KRealEntry; KEntry]
  | KRealPiFraction => [KRealPi; KRealFraction; KReal; KRealEntry; KEntry]
  | KComplexEntry => [KEntry]
  | KComplex => [KComplexEntry; KEntry]
  | KComplexFraction => [KComplex; KComplexEntry; KEntry]
  | KComplexRadical => [KComplexEntry; KEntry]
  | KComplexPi => [KComplex; KComplexEntry; KEntry]
  | KComplexPiFraction => [KComplexPi; KComplexFraction; KComplex; KComplexEntry; KEntry]
  | KList => [KEntry]
  | KRealList | KComplexList => [KList; KEntry]
  | KMatrix => [KEntry]
  | KTokenized => [KSized; KEntry]
  | KEquation => [KTokenized; KSized; KEntry]
  | KNewEquation | KGraphedEquation => [KEquation; KTokenized; KSized; KEntry]
  | KString => [KTokenized; KSized; KEntry]
  | KProgram => [KTokenized; KSized; KEntry]
  | KAsmProgram | KProtectedProgram => [KProgram; KTokenized; KSized; KEntry]
  | KProtectedAsmProgram => [KAsmProgram; KProtectedProgram; KProgram; KTokenized; KSized; KEntry]
  | KPicture => [KSized; KEntry]
  | KMonoPicture | KTIPicture | KImage => [KPicture; KSized; KEntry]
  | KMonoGDB => [KSized; KEntry]
  | KGDB | KMonoFunc | KMonoParam | KMonoPolar | KMonoSeq => [KMonoGDB; KSized; KEntry]
  | KFunc => [KGDB; KMonoFunc; KMonoGDB; KSized; KEntry]
  | KParam => [KGDB; KMonoParam; KMonoGDB; KSized; KEntry]
  | KPolar => [KGDB; KMonoPolar; KMonoGDB; KSized; KEntry]
  | KSeq => [KGDB; KMonoSeq; KMonoGDB; KSized; KEntry]
  | KSettings => [KSized; KEntry]
  | KWindow | KRecallWindow | KTable => [KSettings; KSized; KEntry]
  | KGroup | KAppVar => [KSized; KEntry]
  end.
(** [issubclass(a, b)]. *)
Definition issubclass (a b : cls) : bool := existsb (cls_eqb b) (a :: supers a).

(** [flash_only].  var.py:256; real.py:383, 611, 664; complex.py:399, 419, 439;
    picture.py:288, 367; appvar.py:18. *)
Definition flash_only (c : cls) : bool :=
  match c with
  | KRealRadical | KRealPi | KRealPiFraction
  | KComplexRadical | KComplexPi | KComplexPiFraction
  | KTIPicture | KImage | KAppVar => true
  | _ => false
  end.

(** [TokenizedEntry.versions].  tokenized.py:25-30. *)
Definition tokenized_versions : list Z :=
  [0; 1; 2; 3; 4; 5; 6; 10; 11; 12; 32; 33; 34; 35; 36; 37; 38; 42; 43; 44].
(** [versions].  var.py:266; real.py:335, 385, 613; complex.py:103; list.py:81;
    matrix.py:24; tokenized.py:25; picture.py:290, 369. *)
Definition versions (c : cls) : list Z :=
  match c with
  | KRealFraction => [6]
  | KRealRadical | KRealPi | KRealPiFraction => [16]
  | KComplexEntry | KComplex | KComplexFraction | KComplexRadical | KComplexPi
  | KComplexPiFraction => [0; 11; 16]
  | KList | KRealList | KComplexList | KMatrix => [16; 11; 0]
  | KTokenized | KEquation | KNewEquation | KString | KProgram | KAsmProgram
  | KProtectedProgram | KProtectedAsmProgram | KGraphedEquation => tokenized_versions
  | KTIPicture => [10]
  | _ => [0]
  end.

(** [min_data_length].  var.py:274, 1304; real.py:38, 236, 387; complex.py:111;
    list.py:83; matrix.py:33; tokenized.py:32; picture.py:242, 297, 376;
    gdb.py:159, 380, 724, 832, 950, 986, 1132, 1168, 1268, 1304, 1516;
    settings.py:23, 67, 310, 553. *)
Definition min_data_length (c : cls) : Z :=
  match c with
  | KEntry => 0
  | KRealEntry | KGraphReal | KReal | KUndefReal | KRealFraction | KRealRadical | KRealPi
  | KRealPiFraction => 9
  | KComplexEntry | KComplex | KComplexFraction | KComplexRadical | KComplexPi
  | KComplexPiFraction => 18
  | KMonoPicture => 758 | KTIPicture => 21947 | KImage => 22247
  | KGraphedEquation => 3
  | KMonoGDB => 61 | KGDB => 66
  | KMonoFunc => 110 | KFunc => 128 | KMonoParam => 130 | KParam => 144
  | KMonoPolar => 112 | KPolar => 126 | KMonoSeq => 163 | KSeq => 174
  | KWindow => 210 | KRecallWindow => 209 | KTable => 20
  | _ => 2
  end.

(** [type(self).calc_data.length]: the declared length of the [calc_data]
    section, [None] when unbounded.  var.py:558, 1306; real.py:94, 242, 451;
    complex.py:171; list.py:112; matrix.py:65; gdb.py; picture.py;
    settings.py:86, 329, 572. *)
Definition calc_length (c : cls) : option Z :=
  match c with
  | KRealEntry | KGraphReal | KReal | KUndefReal | KRealFraction | KRealRadical | KRealPi
  | KRealPiFraction => Some 9
  | KComplexEntry | KComplex | KComplexFraction | KComplexRadical | KComplexPi
  | KComplexPiFraction => Some 18
  | KWindow => Some 210 | KRecallWindow => Some 209 | KTable => Some 20
  | _ => None
  end.

(** [leading_name_byte].  var.py:281; matrix.py:35; tokenized.py:250, 304;
    picture.py:256, 309, 388; gdb.py:382. *)
Definition leading_name_byte (c : cls) : bytes :=
  match c with
  | KMatrix => [92]
  | KEquation | KNewEquation | KGraphedEquation => [94]
  | KString => [170]
  | KMonoPicture | KTIPicture => [96]
  | KImage => [60]
  | KMonoGDB | KGDB | KMonoFunc | KFunc | KMonoParam | KParam
  | KMonoPolar | KPolar | KMonoSeq | KSeq => [97]
  | _ => []
  end.

(** [leading_data_bytes].  var.py:286; picture.py:389. *)
Definition leading_data_bytes (c : cls) : bytes :=
  match c with KImage => [129] | _ => [] end.

(** GDB attributes [num_equations], [num_parameters], [num_styles], [mode_byte].
    gdb.py:384-404, 830-836, 984-990, 1166-1172, 1302-1308. *)
Definition num_equations (c : cls) : nat :=
  match c with
  | KMonoFunc | KFunc => 10 | KMonoParam | KParam => 12
  | KMonoPolar | KPolar => 6 | KMonoSeq | KSeq => 3 | _ => 0
  end.
Definition num_parameters (c : cls) : nat :=
  match c with
  | KMonoFunc | KFunc => 1 | KMonoParam | KParam => 3
  | KMonoPolar | KPolar => 3 | KMonoSeq | KSeq => 10 | _ => 0
  end.
Definition num_styles (c : cls) : nat :=
  match c with
  | KMonoFunc | KFunc => 10 | KMonoParam | KParam => 6
  | KMonoPolar | KPolar => 6 | KMonoSeq | KSeq => 3 | _ => 0
  end.
Definition mode_byte (c : cls) : Z :=
  match c with
  | KMonoFunc | KFunc => 16 | KMonoParam | KParam => 64
  | KMonoPolar | KPolar => 32 | KMonoSeq | KSeq => 128 | _ => 0
  end.

(** [extensions]: key [None] first.  var.py:261; real.py:31; complex.py:105;
    list.py:213, 230; matrix.py:26; tokenized.py:243, 297, 340;
    picture.py:236, 292, 371; gdb.py:373; settings.py:60, 303, 546;
    group.py:31; appvar.py:20. *)
Definition ext3 (a b c d : string) : list (option model * str) :=
  [(None, s2l a); (Some TI_82, s2l b); (Some TI_83, s2l c); (Some TI_83P, s2l d)].
Definition extensions (c : cls) : list (option model * str) :=
  match c with
  | KRealEntry | KGraphReal | KReal | KUndefReal | KRealFraction | KRealRadical | KRealPi
  | KRealPiFraction => ext3 "8xn" "82n" "83n" "8xn"
  | KComplexEntry | KComplex | KComplexFraction | KComplexRadical | KComplexPi
  | KComplexPiFraction => [(None, s2l "8xc"); (Some TI_83, s2l "83c"); (Some TI_83P, s2l "8xc")]
  | KRealList => ext3 "8xl" "82l" "83l" "8xl"
  | KComplexList => [(None, s2l "8xl"); (Some TI_83, s2l "83l"); (Some TI_83P, s2l "8xl")]
  | KMatrix => ext3 "8xm" "82m" "83m" "8xm"
  | KEquation | KNewEquation | KGraphedEquation => ext3 "8xy" "82y" "83y" "8xy"
  | KString => ext3 "8xs" "82s" "83s" "8xs"
  | KProgram | KAsmProgram | KProtectedProgram | KProtectedAsmProgram =>
      ext3 "8xp" "82p" "83p" "8xp"
  | KMonoPicture => [(None, s2l "8xi"); (Some TI_83P, s2l "8xi"); (Some TI_84PCSE, [])]
  | KTIPicture => [(None, s2l "8ci"); (Some TI_84PCSE, s2l "8ci")]
  | KImage => [(None, s2l "8ca"); (Some TI_84PCSE, s2l "8ca")]
  | KMonoGDB | KGDB | KMonoFunc | KFunc | KMonoParam | KParam
  | KMonoPolar | KPolar | KMonoSeq | KSeq => ext3 "8xd" "82d" "83d" "8xd"
  | KWindow => ext3 "8xw" "82w" "83w" "8xw"
  | KRecallWindow => ext3 "8xz" "82z" "83z" "8xz"
  | KTable => ext3 "8xt" "82t" "83t" "8xt"
  | KGroup => ext3 "8xg" "82g" "83g" "8xg"
  | KAppVar => [(None, s2l "8xv"); (Some TI_83P, s2l "8xv")]
  | KEntry | KSized | KList | KTokenized | KPicture | KSettings => [(None, s2l "8xg")]
  end.
