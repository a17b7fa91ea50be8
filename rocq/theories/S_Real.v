(** Specifications for real numbers (C08, C25-C32).  Independent of the model:
    decimal literals, their values, comparison of scaled integers. *)
From Verif Require Import PyBase.

(** Digits and the number they spell. *)
Definition digit (d : Z) : Prop := 0 <= d < 10.
Definition number (ds : list Z) : Z := fold_left (fun v d => v * 10 + d) ds 0.
Definition text_of (ds : list Z) : str := map (fun d => d + 48) ds.

(** A decimal literal [sign]digits[.digits][e[sign]digits]; the minus sign may
    be the calculator's "~" and the exponent mark the calculator's "|e". *)
Record literal := Lit {
  l_sign : str; l_int : list Z; l_frac : option (list Z); l_exp : option (str * str * list Z) }.
Definition frac_digits (l : literal) : list Z := match l_frac l with Some f => f | None => [] end.
Definition lit_text (l : literal) : str :=
  l_sign l ++ text_of (l_int l) ++
  match l_frac l with Some f => s2l "." ++ text_of f | None => [] end ++
  match l_exp l with Some (e, s, ds) => e ++ s ++ text_of ds | None => [] end.
Definition is_sign (s : str) : Prop := In s [s2l ""; s2l "+"; s2l "-"; s2l "~"].
Definition is_mark (s : str) : Prop := In s [s2l "e"; s2l "E"; s2l "|e"; s2l "|E"].
Definition negative (s : str) : bool := leqb s (s2l "-") || leqb s (s2l "~").
(** Digits are digits, and the integer part has no superfluous leading zero:
    it does not start with 0 unless it is worth 0. *)
Definition lit_wf (l : literal) : Prop :=
  is_sign (l_sign l) /\ Forall digit (l_int l) /\ Forall digit (frac_digits l) /\
  (hd 1 (l_int l) = 0 -> number (l_int l) = 0) /\
  match l_exp l with
  | Some (e, s, ds) => is_mark e /\ is_sign s /\ Forall digit ds /\ ds <> []
  | None => True
  end.
(** The value of a literal is [lit_coef * 10 ^ lit_scale], negated if
    [lit_neg]. *)
Definition lit_neg (l : literal) : bool := negative (l_sign l).
Definition lit_coef (l : literal) : Z := number (l_int l ++ frac_digits l).
Definition exp_value (l : literal) : Z :=
  match l_exp l with
  | Some (_, s, ds) => if negative s then - number ds else number ds
  | None => 0
  end.
Definition lit_scale (l : literal) : Z := exp_value l - zlen (frac_digits l).

(** Comparison of [a * 10 ^ x] with [b * 10 ^ y]. *)
Definition sci_le (a x b y : Z) : Prop := a * 10 ^ (x - Z.min x y) <= b * 10 ^ (y - Z.min x y).
Definition sci_lt (a x b y : Z) : Prop := a * 10 ^ (x - Z.min x y) < b * 10 ^ (y - Z.min x y).
Definition sci_eq (a x b y : Z) : Prop := a * 10 ^ (x - Z.min x y) = b * 10 ^ (y - Z.min x y).

(** [m * 10 ^ x] is [n * 10 ^ y] cut after 14 significant digits. *)
Definition truncated14 (n y m x : Z) : Prop :=
  10 ^ 13 <= m < 10 ^ 14 /\ sci_le m x n y /\ sci_lt n y (m + 1) x.

(** A stored floating point number: first byte [f] apart from its sign bit,
    sign, exponent byte, fourteen packed digits. *)
Definition payload (low : Z) (neg : bool) (x m : Z) (d : bytes) : Prop :=
  length d = 9%nat /\
  nth 0 d 0 = low + (if neg then 128 else 0) /\ nth 1 d 0 = x /\
  forall i, (i < 7)%nat ->
    nth (8 - i) d 0 = 16 * (m / 10 ^ (2 * Z.of_nat i + 1) mod 10) + m / 10 ^ (2 * Z.of_nat i) mod 10.

(** White space, as code points, and a text without it. *)
Definition spaces : list Z :=
  [9; 10; 11; 12; 13; 28; 29; 30; 31; 32; 133; 160; 5760; 8192; 8193; 8194; 8195; 8196; 8197; 8198; 8199;
   8200; 8201; 8202; 8232; 8233; 8239; 8287; 12288].
Definition without (cs s : str) : str := filter (fun c => negb (existsb (Z.eqb c) cs)) s.
Definition unspaced (s : str) : str := without spaces s.

(** * Radicals *)

(** The nibbles of a payload: nibble 2k is the high half of byte k, nibble
    2k+1 its low half. *)
Definition nibble (d : bytes) (k : nat) : Z :=
  if Nat.even k then nth (Nat.div2 k) d 0 / 16 else nth (Nat.div2 k) d 0 mod 16.
(** [d'] is [d] with nibbles k..k+n-1 replaced by the n decimal digits of v. *)
Definition nibbles_written (k n : nat) (v : Z) (d d' : bytes) : Prop :=
  length d' = length d /\ wf_bytes d' /\
  forall i, (i < 2 * length d)%nat ->
    nibble d' i = if Nat.leb k i && Nat.ltb i (k + n)
                  then v / 10 ^ Z.of_nat (k + n - 1 - i) mod 10 else nibble d i.

(** A term [sign digits root digits]; the scalar may be missing (then 1), the
    root part may be missing (then the radicand is 1). *)
Record term := Term { t_sign : str; t_scal : list Z; t_rad : option (str * list Z) }.
(** [(term term) / [sign] digits]; the second term and the denominator may be
    missing. *)
Record radical := Radical { r_fst : term; r_snd : option term; r_den : option (str * list Z) }.
Definition term_text (t : term) : str :=
  t_sign t ++ text_of (t_scal t) ++ match t_rad t with Some (r, ds) => r ++ text_of ds | None => [] end.
Definition rad_text (r : radical) : str :=
  term_text (r_fst r) ++ match r_snd r with Some t => term_text t | None => [] end ++
  match r_den r with Some (s, ds) => s2l "/" ++ s ++ text_of ds | None => [] end.
Definition is_root (r : str) : Prop := r = [8730] \/ r = s2l "sqrt".
Definition term_wf (t : term) : Prop :=
  is_sign (t_sign t) /\ Forall digit (t_scal t) /\
  match t_rad t with Some (r, ds) => is_root r /\ Forall digit ds /\ ds <> [] | None => t_scal t <> [] end.
(** The documented form: one or two terms, the second with a sign, over an
    optional denominator that may carry a sign. *)
Definition rad_form (r : radical) : Prop :=
  term_wf (r_fst r) /\
  match r_snd r with Some t => term_wf t /\ t_sign t <> [] | None => True end /\
  match r_den r with Some (s, ds) => is_sign s /\ Forall digit ds /\ ds <> [] | None => True end.
(** Two ways of writing a radical that the loader does not understand: a sum of
    two integers without any root, and a signed denominator under a single
    root. *)
Definition rootless_sum (r : radical) : Prop :=
  exists t, r_snd r = Some t /\ t_rad (r_fst r) = None /\ t_rad t = None.
Definition signed_below_root (r : radical) : Prop :=
  r_snd r = None /\ t_rad (r_fst r) <> None /\ exists s ds, r_den r = Some (s, ds) /\ s <> [].
(** The forms the loader understands: a second term carries a sign and at
    least one of two terms a root; the denominator of a single root term is
    unsigned. *)
Definition rad_wf (r : radical) : Prop :=
  term_wf (r_fst r) /\
  match r_snd r with
  | Some t => term_wf t /\ t_sign t <> [] /\ (t_rad (r_fst r) <> None \/ t_rad t <> None)
  | None => True
  end /\
  match r_den r with
  | Some (s, ds) => is_sign s /\ Forall digit ds /\ ds <> [] /\
                    (r_snd r = None -> t_rad (r_fst r) <> None -> s = [])
  | None => True
  end.
Definition signed (s : str) (v : Z) : Z := if negative s then - v else v.
Definition scalar (t : term) : Z := signed (t_sign t) (match t_scal t with [] => 1 | ds => number ds end).
Definition radicand (t : term) : Z := match t_rad t with Some (_, ds) => number ds | None => 1 end.
Definition denominator (r : radical) : Z := match r_den r with Some (s, ds) => signed s (number ds) | None => 1 end.
Definition scalar2 (r : radical) : Z := match r_snd r with Some t => scalar t | None => 0 end.
Definition radicand2 (r : radical) : Z := match r_snd r with Some t => radicand t | None => 1 end.
(** Equality of [(a sqrt b + c sqrt d) / e] and [(a' sqrt b' + c' sqrt d') / e'],
    with the square root replaced by an arbitrary function: the radicals agree
    whatever the roots are worth. *)
Definition same_radical (a b c d e a' b' c' d' e' : Z) : Prop :=
  forall f : Z -> Z, (a * f b + c * f d) * e' = (a' * f b' + c' * f d') * e.

(** [d'] is [d] with the top bit of its first byte flipped. *)
Definition top_flipped (d d' : bytes) : Prop :=
  length d' = length d /\ nth 0 d' 0 = (nth 0 d 0 + 128) mod 256 /\ forall i, i <> O -> nth i d' 0 = nth i d 0.
