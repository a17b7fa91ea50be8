(** Specifications for the tokenizer, independent of the loops that compute. *)
From Verif Require Import PyBase M_Tok.

Section Spec.
Context {OS : Type}.
Notation token := (token OS).

(** ** Sheets *)
(** Every token is filed under its own bytes. *)
Definition sheet_ok (sheet : bytes -> option token) : Prop := forall b t, sheet b = Some t -> t_bits t = b.
(** Keys have one or two bytes, do not start with NUL, and no key is the
    beginning of another. *)
Definition prefix_free (sheet : bytes -> option token) : Prop :=
  (forall b t, sheet b = Some t -> (length b = 1%nat \/ length b = 2%nat) /\ hd 0 b <> 0) /\
  (forall a b t u, sheet [a] = Some t -> sheet [a; b] = Some u -> False).
Definition on_sheet (sheet : bytes -> option token) (t : token) : Prop := sheet (t_bits t) = Some t.
(** The version order is linear: versions have ranks. *)
Definition ranked (gt : OS -> OS -> bool) (rank : OS -> Z) : Prop := forall a b, gt a b = true <-> rank b < rank a.
(** [m] is a maximum of [l] (of [base] when [l] adds nothing). *)
Definition is_max (rank : OS -> Z) (base : OS) (l : list OS) (m : OS) : Prop :=
  (m = base \/ In m l) /\ rank base <= rank m /\ Forall (fun x => rank x <= rank m) l.

(** ** Names *)
(** Inserted names, oldest first: the last token inserted under a name owns it. *)
Definition pairs_of (ks : list token) : list (str * token) := flat_map (fun k => map (fun n => (n, k)) (t_names k)) ks.
Definition named (ps : list (str * token)) (n : str) (k : token) : Prop :=
  exists a b, ps = a ++ (n, k) :: b /\ forall k', ~ In (n, k') b.
Definition no_empty_name (ks : list token) : Prop := forall k, In k ks -> ~ In [] (t_names k).

(** ** Byte literals: backslash-x and four characters in all, or backslash-u and
    six (fewer at the end of the text). *)
Definition literal (s p : str) : Prop :=
  exists r, s = p ++ r /\
    ((firstn 2 s = [92; 120] /\ (length p = 4%nat \/ (length p < 4)%nat /\ r = [])) \/
     (firstn 2 s = [92; 117] /\ (length p = 6%nat \/ (length p < 6)%nat /\ r = []))).
Definition starts_literal (s : str) : Prop := firstn 2 s = [92; 120] \/ firstn 2 s = [92; 117].

(** ** Segmentations of a text *)
(** Bytes written by a literal, as Python's fromhex reads its hex digits. *)
Definition literal_bytes (p : str) (b : bytes) : Prop := fromhex (lstrip_ux p) = Ok b.
(** Any way of cutting the text into names and literals. *)
Inductive cut (ill : bytes -> token) (ps : list (str * token)) : str -> list token -> Prop :=
| cut_nil : cut ill ps [] []
| cut_name s n k r ks : ~ starts_literal s -> s = n ++ r -> named ps n k -> cut ill ps r ks -> cut ill ps s (k :: ks)
| cut_literal s p b r ks : literal s p -> s = p ++ r -> literal_bytes p b -> cut ill ps r ks ->
    cut ill ps s (ill b :: ks).
(** The lengths of the names that start the text. *)
Definition name_len (ps : list (str * token)) (s : str) (n : nat) : Prop :=
  (n <= length s)%nat /\ exists k, named ps (firstn n s) k.
Definition longest (ps : list (str * token)) (s : str) (n : nat) : Prop :=
  name_len ps s n /\ forall m, name_len ps s m -> (m <= n)%nat.
Definition shortest (ps : list (str * token)) (s : str) (n : nat) : Prop :=
  name_len ps s n /\ forall m, name_len ps s m -> (n <= m)%nat.
(** The shortest, but a punctuation mark is not split off a longer name: then
    the second shortest. *)
Definition short_glyph (ps : list (str * token)) (s : str) (n : nat) : Prop :=
  if is_punct (hd 0 s) then
    (shortest ps s n /\ forall m, name_len ps s m -> m = n) \/
    (exists n0, shortest ps s n0 /\ (n0 < n)%nat /\ name_len ps s n /\ forall m, name_len ps s m -> m = n0 \/ (n <= m)%nat)
  else shortest ps s n.
Inductive cut_by (choice : str -> nat -> Prop) (ill : bytes -> token) (ps : list (str * token)) : str -> list token -> Prop :=
| by_nil : cut_by choice ill ps [] []
| by_name s n k ks : s <> [] -> ~ starts_literal s -> choice s n -> named ps (firstn n s) k ->
    cut_by choice ill ps (skipn n s) ks -> cut_by choice ill ps s (k :: ks)
| by_literal s p b r ks : literal s p -> s = p ++ r -> literal_bytes p b -> cut_by choice ill ps r ks ->
    cut_by choice ill ps s (ill b :: ks).

(** ** Logical lines *)
(** The tokens that [lines] treats specially. *)
Definition is_bits (b : Z) (k : token) : bool := leqb (t_bits k) [b].
(** The tokens paired with whether they lie inside a string literal: a quote
    toggles, a store arrow or a line break ends the string. *)
Fixpoint in_strings (inside : bool) (ks : list token) : list (bool * token) :=
  match ks with
  | [] => []
  | k :: r => (inside, k) ::
      in_strings (if is_bits 4 k || is_bits 63 k then false else if is_bits 42 k then negb inside else inside) r
  end.
(** A separator: a line break, or a colon outside strings. *)
Definition separator (p : bool * token) : bool := is_bits 63 (snd p) || (is_bits 62 (snd p) && negb (fst p)).
Definition dropped (k : token) : bool := is_bits 4 k || is_bits 42 k.
End Spec.
