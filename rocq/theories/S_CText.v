(** Specification for the text of complex numbers (C108). *)
From Verif Require Import PyBase M_Class S_Complex.

(** A text that is a plain text with at most a minus sign in front. *)
Definition signed_plain (s : str) : Prop := exists A, plain A /\ (s = A \/ s = s2l "-" ++ A).
(** The kinds shown with the unit in front of the fraction bar. *)
Definition barred (c : cls) : Prop := c = KRealFraction \/ c = KRealPiFraction.
(** The kinds shown with the unit at the end, without a space. *)
Definition closing (c : cls) : Prop := c = KReal \/ c = KRealPi.
(** The texts of real and imaginary part that are not found again in the text of
    the number:
    - a real part, and an imaginary part of plus or minus one over something
      (the 1 is dropped and the bar begins the text);
    - a real part, and the imaginary part -1 (the 1 is dropped, the sign stays);
    - no real part, and a whole imaginary part of a fraction kind (no bar, so no
      unit is printed). *)
Definition misread (a : str) (c : cls) (b : str) : Prop :=
  (a <> s2l "0" /\ barred c /\ exists r, b = s2l "1/" ++ r \/ b = s2l "-1/" ++ r) \/
  (a <> s2l "0" /\ closing c /\ b = s2l "-1") \/
  (a = s2l "0" /\ b <> s2l "0" /\ barred c /\ ~ In 47 b).
