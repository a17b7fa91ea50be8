(** What smart tokenisation chooses: each place in the text has its own rule for
    the next name, and the place depends only on the tokens before it. *)
From Verif Require Import PyBase M_Tok S_Tok.

(** The places: outside; inside a string; right after Send( ; inside a string
    after Send( ; inside a program or list name, with its limit and the number
    of tokens seen so far. *)
Inductive place := Outside | InString | AfterSend | InSent | InName (limit seen : Z).
(** The bytes of tokens that may continue a name: a digit, a letter or theta
    (two bytes are compared by the first). *)
Definition continues (b : bytes) : bool :=
  match b with
  | [] => false
  | [x] => ((48 <=? x) && (x <=? 57)) || ((65 <=? x) && (x <=? 91))
  | x :: _ => ((48 <=? x) && (x <=? 56)) || ((65 <=? x) && (x <=? 90))
  end.
(** The place after a token with bytes [b] ([written]: written as a byte
    literal). *)
Definition after (p : place) (written : bool) (b : bytes) : place :=
  match p with
  | Outside =>
      match b with [42] => InString | [95] => InName 8 0 | [231] => AfterSend | [235] => InName 5 0 | _ => Outside end
  | InString => match b with [42] | [4] | [63] => Outside | _ => InString end
  | InSent => match b with [42] | [4] | [63] => Outside | _ => InSent end
  | AfterSend => match b with [42] => InSent | _ => Outside end
  | InName limit seen => if continues b && (written || negb (seen =? limit)) then InName limit (seen + 1) else Outside
  end.
Section Spec.
Context {OS : Type}.
Notation token := (token OS).
(** Longest names outside strings and names (and in strings sent to the
    calculator), short ones inside. *)
Definition rule (ps : list (str * token)) (p : place) (s : str) (n : nat) : Prop :=
  match p with Outside | AfterSend | InSent => longest ps s n | InString | InName _ _ => short_glyph ps s n end.
Inductive smart_cut (ill : bytes -> token) (ps : list (str * token)) : place -> str -> list token -> Prop :=
| smart_nil p : smart_cut ill ps p [] []
| smart_name p s n k ks : s <> [] -> ~ starts_literal s -> rule ps p s n -> named ps (firstn n s) k ->
    smart_cut ill ps (after p false (t_bits k)) (skipn n s) ks -> smart_cut ill ps p s (k :: ks)
| smart_literal p s q b r ks : literal s q -> s = q ++ r -> literal_bytes q b ->
    smart_cut ill ps (after p true b) r ks -> smart_cut ill ps p s (ill b :: ks).
(** The place before each token, from the tokens before it (no literals). *)
Definition opener (b : bytes) : bool := match b with [42] | [95] | [231] | [235] => true | _ => false end.
End Spec.
