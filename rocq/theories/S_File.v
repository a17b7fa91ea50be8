(** Specifications for whole-file and whole-object operations. *)
From Verif Require Import PyBase M_Models M_Class M_Data M_Var S_Var.

(** The two-byte little-endian word at the start of what follows the first
    entry and two more bytes is the second entry's data length. *)
Definition looks_like_meta (n : Z) : bool := (n =? 11) || (n =? 13).

(** What [open] says about the entries behind the first one. *)
Definition behind (es : list entry) : list warning :=
  match es with
  | [] => []
  | e :: _ => if looks_like_meta (zlen (b_data (e_data e))) then [WMultiple] else [WDataLength]
  end.

(** The same object: class and raw contents. *)
Definition same_entry (a b : entry) : Prop := e_cls a = e_cls b /\ same_raw a b.

(** Classes whose entries keep their class whatever bytes they load. *)
Definition plain (c : cls) : Prop :=
  In c [KReal; KUndefReal; KRealFraction; KRealRadical; KRealPi; KRealPiFraction; KMatrix;
        KEquation; KNewEquation; KString; KWindow; KRecallWindow; KTable; KGroup; KAppVar].
Definition complex_class (c : cls) : Prop :=
  In c [KComplex; KComplexFraction; KComplexRadical; KComplexPi; KComplexPiFraction].
Definition asm_class (c : cls) : Prop := c = KAsmProgram \/ c = KProtectedAsmProgram.

(** A file name with an extension of the class, in lower or upper case. *)
Definition lower_ascii (c : Z) : Z := if (65 <=? c) && (c <=? 90) then c + 32 else c.
Definition has_extension (c : cls) (filename : str) : Prop :=
  exists stem x ext, filename = stem ++ x /\ map lower_ascii x = ext /\ In ext (map snd (extensions c)).
