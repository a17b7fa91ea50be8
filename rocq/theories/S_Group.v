(** Specification of the group format, without the functions of M_Group. *)
From Verif Require Import PyBase M_Class M_Data M_Var S_Var.

(** Kinds whose name is stored with its length, and fixed-size kinds. *)
Definition named_type (t : Z) : Prop := In t [5; 6; 21; 23].
Definition sized_type (t : Z) : Prop := In t [3; 11; 4; 5; 6; 8; 21; 23; 7; 26; 15; 16; 17].
Definition real_type (t : Z) : Prop := In t [0; 14; 24; 28; 32; 33].
Definition group_type (t : Z) : Prop := real_type t \/ sized_type t.

(** A name without its trailing zeros. *)
Definition bare (field name : bytes) : Prop := exists n, field = name ++ zeros n /\ (forall p, name <> p ++ [0]).

(** The bytes of one member: type, 0, version, 0, 0, archived flag; the name,
    after its length or padded to three bytes; the data. *)
Inductive member : entry -> bytes -> Prop :=
| member_intro c t v a (field name payload : bytes) tail :
    group_type t -> is_byte v ->
    length field = 8%nat -> wf_bytes field -> bare field name ->
    (named_type t -> tail = zlen name :: name) ->
    (~ named_type t -> (length name <= 3)%nat /\ tail = name ++ zeros (3 - length name)) ->
    (real_type t -> length payload = 9%nat) ->
    (sized_type t -> exists p, zlen p < 65536 /\ payload = le16 (zlen p) ++ p) ->
    c <> KGraphedEquation ->
    member (Entry c (le16 13) [t] field [v] [if a : bool then 128 else 0] (Buf true payload))
           ([t; 0; v; 0; 0; if a then 1 else 0] ++ tail ++ payload).

(** What ungrouping gives back for a member: the same raw contents, and the class
    registered for its type (programs may look like assembly programs). *)
Definition regained (ps : bytes -> option bool) (e x : entry) : Prop :=
  same_raw e x /\ (ps [] <> Some true -> forall t, e_type x = [t] -> get_type t = Some (e_cls e)).

(** A computation that does not raise. *)
Definition okay {A} (m : out A) : Prop := exists w a, m = (w, Ok a).

(** The version function works on the entry, on any view of it through another
    class, and on the same entry before its data is there. *)
Definition versioned (gv : entry -> option bytes -> out Z) (x : entry) : Prop :=
  forall e, same_raw e x \/ same_raw e (with_data x (Buf true [])) ->
  exists w v, gv e None = (w, Ok v) /\ is_byte v.
