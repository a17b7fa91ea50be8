(** Specifications for lists and matrices. *)
From Verif Require Import PyBase M_Class.

(** The tag in the low six bits of a number's first byte, and its class. *)
Definition real_kinds : list (Z * cls) :=
  [(0, KReal); (14, KUndefReal); (24, KRealFraction); (28, KRealRadical); (32, KRealPi); (33, KRealPiFraction)].
(** The tag of the imaginary part of a complex number, and its class. *)
Definition complex_kinds : list (Z * cls) :=
  [(12, KComplex); (27, KComplexFraction); (29, KComplexRadical); (30, KComplexPi); (31, KComplexPiFraction)].
(** [d] is the payload of a number of class [c]. *)
Definition real_payload (c : cls) (d : bytes) : Prop :=
  length d = 9%nat /\ wf_bytes d /\ In (nth 0 d 0 mod 64, c) real_kinds.
Definition complex_payload (c : cls) (d : bytes) : Prop :=
  length d = 18%nat /\ wf_bytes d /\ In (nth 9 d 0 mod 64, c) complex_kinds.
(** Element payloads of a list class. *)
Definition payload_for (list_cls : cls) (c : cls) (d : bytes) : Prop :=
  match list_cls with
  | KRealList => real_payload c d
  | KComplexList => complex_payload c d
  | _ => False
  end.
(** The token sheet encodes the default variable name "A". *)
Definition names_ok (ns : cls -> str -> out bytes) : Prop :=
  forall c, In c [KRealEntry; KComplexEntry] -> exists nm, ns c (s2l "A") = oret nm /\ (length nm <= 8)%nat.
