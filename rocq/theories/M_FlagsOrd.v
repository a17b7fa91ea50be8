(** Model of the comparisons of [Flags] objects in /repo/tivars/flags.py. *)
From Verif Require Import PyBase M_Data M_Flags.

(** [dict.__eq__], inherited (flags.py:74): as many keys, and each key of the one
    has the same value in the other. *)
Definition dict_eq (f g : flags) : bool :=
  (length f =? length g)%nat &&
  forallb (fun p => match dget g (fst p) with Some v => v =? snd p | None => false end) f.
(** The four order comparisons of Python asked of [Flags].  flags.py:73-74, 99-100. *)
Inductive cmp := Lt | Le | Gt | Ge.
(** [Flags.__gt__].  flags.py:99-100. *)
Definition flags_gt (f g : flags) : result bool :=
  try a := flags_int f in try b := flags_int g in Ok (b <? a).
(** The methods for the four comparisons; [None] is NotImplemented.  Only
    [__gt__] is defined by the class (flags.py:99-100).  [total_ordering]
    (flags.py:73) fills in only methods not found beyond those of [object];
    [dict] (flags.py:74) has its own [__lt__], [__le__] and [__ge__], which give
    NotImplemented, so it adds nothing. *)
Definition cmp_method (o : cmp) (f g : flags) : option (result bool) :=
  match o with Gt => Some (flags_gt f g) | Lt | Le | Ge => None end.
(** The comparison asked of the right operand when the left one gives
    NotImplemented (Python data model, rich comparisons). *)
Definition mirror (o : cmp) : cmp := match o with Lt => Gt | Le => Ge | Gt => Lt | Ge => Le end.
(** [f < g], [f <= g], [f > g], [f >= g] of two [Flags]: TypeError if neither
    method is implemented.  flags.py:73-74, 99-100. *)
Definition flags_compare (o : cmp) (f g : flags) : result bool :=
  match cmp_method o f g with
  | Some r => r
  | None => match cmp_method (mirror o) g f with Some r => r | None => Err TypeError end
  end.
