(** C97-C102: which OS an entry needs and which models support it. *)
From Verif Require Import L_Base M_Data M_Flags M_Models M_Class M_Var M_Real M_Complex M_List M_Tok M_Group M_Gdb M_Os S_Data L_Data S_Var L_Models P_Models L_Var P_Var S_List L_List P_List S_Tok L_Tok P_Tok S_Complex L_Complex P_Complex.

Lemma kind_cases c k (l : list cls) : issubclass c k = true -> filter (fun c => issubclass c k) CLASSES = l -> In c l.
Proof. intros I <-. apply filter_In. split; [destruct c; cbn; tauto|exact I]. Qed.
Definition real_classes : list cls := [KRealEntry; KGraphReal; KReal; KUndefReal; KRealFraction; KRealRadical; KRealPi; KRealPiFraction].
Definition complex_classes : list cls := [KComplexEntry; KComplex; KComplexFraction; KComplexRadical; KComplexPi; KComplexPiFraction].

(** The models with exact arithmetic. *)
Definition exact_models : list model := [TI_83PCE; TI_83PCEEP; TI_82AEP].
Lemma has_exact m : has m ExactMath = Ok (existsb (model_eqb m) exact_models).
Proof. destruct m; reflexivity. Qed.

Section Support.
Context {OS : Type}.
Variable os_gt os_lt : OS -> OS -> bool.
Variable INITIAL illegal_since : OS.
Variable os_of : model -> str -> OS.
Variable sheet : bytes -> option (token OS).
Variable ns : cls -> str -> out bytes.
Variable gv : entry -> option bytes -> out Z.
Variable ps : bytes -> option bool.
Notation entry_min_os := (entry_min_os OS os_gt INITIAL illegal_since os_of sheet ns gv ps).
Notation min_os := (min_os OS os_gt INITIAL illegal_since os_of sheet ns gv ps).
Notation supported_by := (supported_by OS os_gt os_lt INITIAL illegal_since os_of sheet ns gv ps).
Notation latest := (fun m => os_of m (s2l "latest")) (only parsing).

(** ** C97: real numbers *)
(** The OS that fractions need. *)
Notation mathprint := (os_of TI_84P (s2l "2.53")).
Definition real_needs (b : Z) : OS := if (b =? 24) || (b =? 25) then mathprint else INITIAL.
Lemma real_min e b r w : In (e_cls e) real_classes -> e_data e = Buf w (b :: r) -> entry_min_os e = oret (real_needs b).
Proof.
  intros C D. unfold M_Os.entry_min_os.
  assert (X : data e = b :: r).
  { unfold data. rewrite D. cbn in C. destruct C as [<-|[<-|[<-|[<-|[<-|[<-|[<-|[<-|[]]]]]]]]]; apply py_slice_all. }
  assert (G : issubclass (e_cls e) KGroup = false) by (cbn in C; destruct C as [<-|[<-|[<-|[<-|[<-|[<-|[<-|[<-|[]]]]]]]]]; reflexivity).
  assert (R : issubclass (e_cls e) KRealEntry = true) by (cbn in C; destruct C as [<-|[<-|[<-|[<-|[<-|[<-|[<-|[<-|[]]]]]]]]]; reflexivity).
  cbn [M_Os.min_os]. rewrite G. unfold plain_min_os. cbv zeta. rewrite R. unfold real_min_os, or_data. rewrite X.
  reflexivity.
Qed.
(** The kind of a number is its first byte without the graph and sign bits
    (bits 6 and 7). *)
Definition kind_of (b : Z) : Z := b mod 64.
Definition negative (b : Z) : Prop := 128 <= b.
(** Non-negative numbers: mixed or plain fractions need MathPrint, nothing else
    does. *)
Theorem C97_positive : forall e b r w, In (e_cls e) real_classes -> e_data e = Buf w (b :: r) -> 0 <= b < 64 ->
  (In (kind_of b) [24; 25] -> entry_min_os e = oret mathprint) /\ (~ In (kind_of b) [24; 25] -> entry_min_os e = oret INITIAL).
Proof.
  intros e b r w C D B. rewrite (real_min e b r w C D). unfold kind_of, real_needs. rewrite Z.mod_small by lia.
  split; intros K; cbn in K.
  - replace ((b =? 24) || (b =? 25)) with true by lia. reflexivity.
  - replace ((b =? 24) || (b =? 25)) with false by lia. reflexivity.
Qed.
(** The sign and graph bits hide the kind: no such number needs anything. *)
Theorem C97_marked_refuted : forall e b r w, In (e_cls e) real_classes -> e_data e = Buf w (b :: r) -> 64 <= b ->
  entry_min_os e = oret INITIAL.
Proof.
  intros e b r w C D B. rewrite (real_min e b r w C D). unfold real_needs.
  replace ((b =? 24) || (b =? 25)) with false by lia. reflexivity.
Qed.
(** [supported_by] asks for exact arithmetic exactly for kinds above 25. *)
Theorem C97_supported : forall e b r w m, In (e_cls e) real_classes -> e_data e = Buf w (b :: r) -> is_byte b ->
  exists os, entry_min_os e = oret os /\
  supported_by e m = oret (os_lt os (latest m) && ((kind_of b <=? 25) || existsb (model_eqb m) exact_models)).
Proof.
  intros e b r w m C D B. exists (real_needs b). pose proof (real_min e b r w C D) as M. split; [exact M|].
  unfold M_Os.supported_by, base_supported. rewrite M, obind_oret, obind_oret. unfold M_Os.latest.
  destruct (os_lt (real_needs b) (os_of m (s2l "latest"))); [|reflexivity]. cbn [andb].
  assert (R : issubclass (e_cls e) KRealEntry = true) by (cbn in C; destruct C as [<-|[<-|[<-|[<-|[<-|[<-|[<-|[<-|[]]]]]]]]]; reflexivity).
  unfold extra_check. cbv zeta. rewrite R.
  assert (G : get_bits_at 0 0 6 (e_data e) = Ok (kind_of b)).
  { rewrite D. change 0 with (Z.of_nat 0) at 1. apply get_bits_at_nth; reflexivity. }
  rewrite G, obind_lift, obind_oret, has_exact. unfold kind_of.
  destruct (b mod 64 <=? 25); reflexivity.
Qed.

(** ** C98: complex numbers *)
Notation complex_os := (os_of TI_83 []).
Notation complex_fraction_os := (os_of TI_84P (s2l "2.55")).
(** The larger of the first bytes of the two parts decides. *)
Definition deciding (D : bytes) : Z := Z.max (nth 0 D 0) (nth 9 D 0).
Definition complex_needs (D : bytes) : out OS :=
  if deciding D =? 12 then oret complex_os else if deciding D =? 27 then oret complex_fraction_os else oerr TypeError.
Lemma complex_version_is e D : (10 <= length D)%nat -> data e = D ->
  complex_version e None = Ok (if deciding D =? 12 then 0 else if deciding D =? 27 then 11 else 16).
Proof.
  intros L X. unfold complex_version. rewrite X.
  do 10 (destruct D as [|? D]; [cbn in L; lia|]). reflexivity.
Qed.
Lemma complex_min e D w : In (e_cls e) complex_classes -> e_data e = Buf w D -> (10 <= length D)%nat -> entry_min_os e = complex_needs D.
Proof.
  intros C E L. unfold M_Os.entry_min_os.
  assert (X : data e = D).
  { unfold data. rewrite E. cbn in C. destruct C as [<-|[<-|[<-|[<-|[<-|[<-|[]]]]]]]; apply py_slice_all. }
  assert (G : issubclass (e_cls e) KGroup = false /\ issubclass (e_cls e) KRealEntry = false /\ issubclass (e_cls e) KComplexEntry = true)
    by (cbn in C; destruct C as [<-|[<-|[<-|[<-|[<-|[<-|[]]]]]]]; repeat split; reflexivity).
  destruct G as (G1 & G2 & G3).
  cbn [M_Os.min_os]. rewrite G1. unfold plain_min_os. cbv zeta. rewrite G2, G3. unfold complex_min_os, complex_needs.
  rewrite (complex_version_is e D L X). rewrite obind_lift.
  destruct (deciding D =? 12); [reflexivity|]. destruct (deciding D =? 27); reflexivity.
Qed.
(** The parts of a complex number that is standard (12) or a fraction (27), with
    no sign or graph bit. *)
Theorem C98_plain : forall e D w, In (e_cls e) complex_classes -> e_data e = Buf w D -> (10 <= length D)%nat ->
  (nth 0 D 0 = 12 /\ nth 9 D 0 = 12 -> entry_min_os e = oret complex_os) /\
  (In (nth 0 D 0) [12; 27] /\ In (nth 9 D 0) [12; 27] /\ (nth 0 D 0 = 27 \/ nth 9 D 0 = 27) -> entry_min_os e = oret complex_fraction_os).
Proof.
  intros e D w C E L. rewrite (complex_min e D w C E L). unfold complex_needs, deciding. split.
  - intros [-> ->]. reflexivity.
  - intros (A & B & H). replace (Z.max (nth 0 D 0) (nth 9 D 0)) with 27 by (cbn in A, B; lia). reflexivity.
Qed.
(** It succeeds for no other numbers than those whose larger byte is 12 or 27. *)
Theorem C98_succeeds_iff : forall e D w, In (e_cls e) complex_classes -> e_data e = Buf w D -> (10 <= length D)%nat ->
  (exists os, entry_min_os e = oret os) <-> In (Z.max (nth 0 D 0) (nth 9 D 0)) [12; 27].
Proof.
  intros e D w C E L. rewrite (complex_min e D w C E L). unfold complex_needs, deciding.
  set (x := Z.max _ _). split.
  - intros (os & H). destruct (x =? 12) eqn:A; [left; lia|]. destruct (x =? 27) eqn:B; [right; left; lia|]. discriminate H.
  - intros [<-|[<-|[]]]; eexists; reflexivity.
Qed.
(** A negative part makes the question fail, whatever the model. *)
Lemma complex_supported_err e m x : entry_min_os e = oerr x -> supported_by e m = oerr x.
Proof. intros H. unfold M_Os.supported_by, base_supported. rewrite H. reflexivity. Qed.
Theorem C98_negative_refuted : forall e D w m, In (e_cls e) complex_classes -> e_data e = Buf w D -> (10 <= length D)%nat ->
  negative (nth 0 D 0) \/ negative (nth 9 D 0) -> entry_min_os e = oerr TypeError /\ supported_by e m = oerr TypeError.
Proof.
  intros e D w m C E L N. assert (X : entry_min_os e = oerr TypeError).
  { rewrite (complex_min e D w C E L). unfold complex_needs, deciding. unfold negative in N.
    replace (Z.max (nth 0 D 0) (nth 9 D 0) =? 12) with false by lia. replace (Z.max (nth 0 D 0) (nth 9 D 0) =? 27) with false by lia. reflexivity. }
  split; [exact X|]. now apply complex_supported_err.
Qed.
(** So do radicals and multiples of pi (29, 30, 31), even on models with exact
    arithmetic. *)
Theorem C98_exact_refuted : forall e D w m, In (e_cls e) complex_classes -> e_data e = Buf w D -> (10 <= length D)%nat ->
  In (nth 0 D 0) [29; 30; 31] \/ In (nth 9 D 0) [29; 30; 31] -> entry_min_os e = oerr TypeError /\ supported_by e m = oerr TypeError.
Proof.
  intros e D w m C E L N. assert (X : entry_min_os e = oerr TypeError).
  { rewrite (complex_min e D w C E L). unfold complex_needs, deciding. cbn in N.
    replace (Z.max (nth 0 D 0) (nth 9 D 0) =? 12) with false by lia. replace (Z.max (nth 0 D 0) (nth 9 D 0) =? 27) with false by lia. reflexivity. }
  split; [exact X|]. now apply complex_supported_err.
Qed.
(** Whenever there is an answer, exact arithmetic plays no role in it. *)
Theorem C98_supported : forall e D w m os, In (e_cls e) complex_classes -> e_data e = Buf w D -> (10 <= length D)%nat ->
  entry_min_os e = oret os -> supported_by e m = oret (os_lt os (latest m)).
Proof.
  intros e D w m os C E L M. unfold M_Os.supported_by, base_supported. rewrite M, obind_oret, obind_oret. unfold M_Os.latest.
  destruct (os_lt os (os_of m (s2l "latest"))); [|reflexivity].
  assert (X : data e = D).
  { unfold data. rewrite E. cbn in C. destruct C as [<-|[<-|[<-|[<-|[<-|[<-|[]]]]]]]; apply py_slice_all. }
  assert (G : issubclass (e_cls e) KRealEntry = false /\ issubclass (e_cls e) KComplexEntry = true)
    by (cbn in C; destruct C as [<-|[<-|[<-|[<-|[<-|[<-|[]]]]]]]; repeat split; reflexivity).
  destruct G as (G2 & G3). unfold extra_check. cbv zeta. rewrite G2, G3, (complex_version_is e D L X).
  rewrite (complex_min e D w C E L) in M. unfold complex_needs in M.
  destruct (deciding D =? 12); [reflexivity|]. destruct (deciding D =? 27); [reflexivity|discriminate M].
Qed.

(** ** C99: lists and matrices *)
(** The elements of a list or matrix are the full groups of its data. *)
Definition elements (e : entry) (n : nat) (xs : list bytes) : Prop :=
  exists tail, data e = concat xs ++ tail /\ Forall (fun x => length x = n) xs /\ (length tail < n)%nat.
Notation os_max := (os_max OS os_gt INITIAL).
Lemma os_max_spec rank l : ranked os_gt rank -> l <> [] -> In (os_max l) l /\ Forall (fun x => rank x <= rank (os_max l)) l.
Proof.
  intros R N. destruct l as [|x r]; [contradiction|]. clear N. cbn [M_Os.os_max].
  set (f := fun m y => if os_gt y m then y else m).
  assert (G : forall r a, (fold_left f r a = a \/ In (fold_left f r a) r) /\ rank a <= rank (fold_left f r a) /\ Forall (fun y => rank y <= rank (fold_left f r a)) r).
  { clear r x. induction r as [|y r IH]; intros a; cbn [fold_left]; [repeat split; auto; lia|].
    destruct (IH (f a y)) as (A & B & C).
    assert (M : (f a y = a /\ rank y <= rank a) \/ (f a y = y /\ rank a < rank y)).
    { unfold f. destruct (os_gt y a) eqn:E; [right; split; [reflexivity|now apply R]|left; split; [reflexivity|]].
      apply Z.nlt_ge. intros Q. apply R in Q. congruence. }
    split; [|split].
    - destruct A as [A|A]; [|right; now right]. rewrite A. destruct M as [[-> _]|[-> _]]; [now left|right; now left].
    - destruct M as [[E L]|[E L]]; rewrite E in *; lia.
    - constructor; [|exact C]. destruct M as [[E L]|[E L]]; rewrite E in *; lia. }
  destruct (G r x) as (A & B & C). split; [|constructor; [exact B|exact C]].
  destruct A as [A|A]; [left; now rewrite A|now right].
Qed.
Lemma omapM_pure {A B} (f : A -> out B) (g : A -> B) l : (forall a, In a l -> f a = oret (g a)) -> omapM f l = oret (map g l).
Proof.
  induction l as [|a l IH]; intros H; [reflexivity|]. cbn [omapM map]. rewrite (H a) by now left.
  rewrite obind_oret, IH by (intros; apply H; now right). reflexivity.
Qed.
Lemma list_group c : In c [KRealList; KComplexList; KMatrix] -> issubclass c KGroup = false /\ issubclass c KRealEntry = false /\
  issubclass c KComplexEntry = false /\ (issubclass c KList || issubclass c KMatrix) = true.
Proof. intros [<-|[<-|[<-|[]]]]; repeat split. Qed.
Lemma list_min e n xs : names_ok ns -> In (e_cls e) [KRealList; KComplexList; KMatrix] -> elem_size (e_cls e) = n -> elements e n xs ->
  exists x, e_cls x = elem_cls (e_cls e) /\
  entry_min_os e = do l := omapM (fun t => elem_min_os OS INITIAL os_of x (Some t)) xs in oret (os_max l).
Proof.
  intros N C S (tail & D & F & T). unfold M_Os.entry_min_os. destruct (list_group _ C) as (G1 & G2 & G3 & G4).
  cbn [M_Os.min_os]. rewrite G1. unfold plain_min_os. cbv zeta. rewrite G2, G3, G4. unfold list_min_os, or_data.
  assert (EK : In (elem_cls (e_cls e)) [KRealEntry; KComplexEntry]) by (cbn in C; destruct C as [<-|[<-|[<-|[]]]]; cbn; auto).
  destruct (elem_new_fresh ns ps N _ EK) as (x & X & XC). exists x. split; [exact XC|]. rewrite X, obind_oret.
  rewrite S, D. unfold chunks. rewrite chunks_fuel_concat; auto; lia.
Qed.
Definition is_fraction (x : bytes) : Prop := In (hd 0 x) [24; 25].
(** A real list or matrix needs what its most demanding element needs. *)
Theorem C99_real : forall rank e xs, ranked os_gt rank -> rank INITIAL < rank mathprint -> names_ok ns ->
  In (e_cls e) [KRealList; KMatrix] -> elements e 9 xs -> exists os, entry_min_os e = oret os /\
  (os = mathprint <-> Exists is_fraction xs) /\ (os = INITIAL <-> ~ Exists is_fraction xs).
Proof.
  intros rank e xs R I N C X.
  assert (C' : In (e_cls e) [KRealList; KComplexList; KMatrix]) by (cbn in C |- *; intuition).
  assert (SZ : elem_size (e_cls e) = 9%nat) by (cbn in C; destruct C as [<-|[<-|[]]]; reflexivity).
  destruct (list_min e 9 xs N C' SZ X) as (x & XC & M). destruct X as (tail & _ & F & _).
  assert (P : omapM (fun t => elem_min_os OS INITIAL os_of x (Some t)) xs = oret (map (fun t => real_needs (hd 0 t)) xs)).
  { apply omapM_pure. intros t T. rewrite Forall_forall in F. specialize (F t T). destruct t as [|b r]; [discriminate F|].
    unfold elem_min_os. replace (e_cls x) with KRealEntry by (rewrite XC; cbn in C; destruct C as [<-|[<-|[]]]; reflexivity). reflexivity. }
  rewrite P, obind_oret in M. eexists. split; [exact M|]. set (l := map (fun t : list Z => real_needs (hd 0 t)) xs).
  assert (V : forall t, In t xs -> (real_needs (hd 0 t) = mathprint /\ is_fraction t) \/ (real_needs (hd 0 t) = INITIAL /\ ~ is_fraction t)).
  { intros t _. unfold real_needs, is_fraction. destruct ((hd 0 t =? 24) || (hd 0 t =? 25)) eqn:E; [left|right]; (split; [reflexivity|]); cbn; lia. }
  assert (NE : mathprint <> INITIAL) by (intros Q; rewrite Q in I; lia).
  assert (OS2 : (os_max l = mathprint /\ Exists is_fraction xs) \/ (os_max l = INITIAL /\ ~ Exists is_fraction xs)).
  { destruct xs as [|t0 xs']; [right; split; [reflexivity|intros Q; inversion Q]|].
    destruct (os_max_spec rank l R) as (A & B); [discriminate|]. apply in_map_iff in A as (t & E & T).
    destruct (V t T) as [[E' Q]|[E' Q]].
    - left. split; [now rewrite <- E|]. apply Exists_exists. eauto.
    - right. split; [now rewrite <- E|]. intros Q2. apply Exists_exists in Q2 as (u & U & FU).
      destruct (V u U) as [[E2 _]|[_ F2]]; [|contradiction].
      rewrite Forall_forall in B. specialize (B (real_needs (hd 0 u)) (in_map _ _ _ U)). rewrite <- E, E', E2 in B. lia. }
  destruct OS2 as [[-> Q]|[-> Q]]; split; split; intros; try tauto; try congruence; exfalso; congruence.
Qed.
(** A complex list one of whose elements has a negative or exact part has no
    answer. *)
Theorem C99_complex_refuted : forall e xs m, names_ok ns -> e_cls e = KComplexList -> elements e 18 xs ->
  Exists (fun x => negative (nth 0 x 0) \/ negative (nth 9 x 0) \/ In (nth 0 x 0) [29; 30; 31] \/ In (nth 9 x 0) [29; 30; 31]) xs ->
  entry_min_os e = oerr TypeError /\ supported_by e m = oerr TypeError.
Proof.
  intros e xs m N C X B. assert (H : entry_min_os e = oerr TypeError); [|split; [exact H|now apply complex_supported_err]].
  destruct (list_min e 18 xs N) as (x & XC & M); [rewrite C; cbn; auto|rewrite C; reflexivity|exact X|].
  rewrite M. destruct X as (tail & _ & F & _). rewrite C in XC. cbn in XC.
  assert (V : forall t, length t = 18%nat -> elem_min_os OS INITIAL os_of x (Some t) = complex_needs t).
  { intros t L. unfold elem_min_os. rewrite XC. cbn [issubclass]. unfold complex_needs, deciding.
    do 10 (destruct t as [|? t]; [discriminate L|]).
    change (issubclass KComplexEntry KComplexEntry) with true. unfold complex_min_os, complex_version. cbn [py_index]. cbv zeta.
    match goal with |- context [olift ?r] => change r with (Ok (if Z.max z z8 =? 12 then 0 else if Z.max z z8 =? 27 then 11 else 16)) end.
    rewrite obind_lift. cbn [nth]. destruct (Z.max z z8 =? 12); [reflexivity|]. destruct (Z.max z z8 =? 27); reflexivity. }
  assert (G : omapM (fun t => elem_min_os OS INITIAL os_of x (Some t)) xs = oerr TypeError).
  { clear M. induction B as [t xs B|t xs B IH]; inversion F as [|? ? Lt F']; subst; cbn [omapM]; rewrite V by exact Lt.
    - replace (complex_needs t) with (@oerr OS TypeError); [reflexivity|]. unfold complex_needs, deciding. unfold negative in B. cbn in B.
      set (k := Z.max _ _). replace (k =? 12) with false by lia. replace (k =? 27) with false by lia. reflexivity.
    - rewrite IH by assumption. unfold complex_needs. destruct (deciding t =? 12); [reflexivity|]. destruct (deciding t =? 27); reflexivity. }
  rewrite G. reflexivity.
Qed.
(** Support of a list or matrix never depends on exact arithmetic. *)
Theorem C99_supported : forall e m w os, names_ok ns -> In (e_cls e) [KRealList; KComplexList; KMatrix] ->
  entry_min_os e = (w, Ok os) -> supported_by e m = (w, Ok (os_lt os (latest m))).
Proof.
  intros e m w os N C M. unfold M_Os.supported_by, base_supported. rewrite M. unfold M_Os.latest.
  destruct (list_group _ C) as (_ & G2 & G3 & G4). unfold extra_check. cbv zeta. rewrite G2, G3, G4.
  rewrite (C38_version_refuted ns ps e None N C). cbn. destruct (os_lt os (os_of m _)); cbn; now rewrite ?app_nil_r.
Qed.

(** ** C100: whole vars *)
Notation var_supported_by := (var_supported_by OS os_gt os_lt INITIAL illegal_since os_of sheet ns gv ps).
Notation save_warnings := (save_warnings OS os_gt INITIAL illegal_since os_of sheet ns gv ps).
Definition fits (m : model) (e : entry) : Prop := exists w os, entry_min_os e = (w, Ok os) /\ os_lt os (latest m) = true.
Lemma oall_true {A} (f : A -> out bool) l : snd (oall f l) = Ok true <-> Forall (fun a => snd (f a) = Ok true) l.
Proof.
  induction l as [|a l IH]; [cbn; split; auto|]. cbn [oall]. split.
  - intros H. destruct (f a) as [w [b|x]] eqn:E; [|discriminate H]. destruct b; [|discriminate H].
    constructor; [now rewrite E|]. apply IH. cbn [obind] in H. destruct (oall f l) as [w2 r]. exact H.
  - intros H. inversion H as [|? ? Ha Hl]; subst. destruct (f a) as [w r] eqn:E. cbn in Ha. subst r. cbn [obind].
    apply IH in Hl. destruct (oall f l) as [w2 r]. exact Hl.
Qed.
Lemma fits_base e m : snd (base_supported OS os_gt os_lt INITIAL illegal_since os_of sheet ns gv ps e m) = Ok true <-> fits m e.
Proof.
  unfold base_supported, fits, M_Os.latest. destruct (entry_min_os e) as [w [os|x]] eqn:E; cbn [obind snd oret]; split.
  - intros H. injection H as H. eauto.
  - intros (w' & os' & Q & H). injection Q as _ <-. cbn beta in H. now rewrite H.
  - discriminate.
  - intros (w' & os' & Q & H). discriminate Q.
Qed.
(** A var is supported by a model if and only if its header addresses the model and
    each entry's OS is older than the model's latest one. *)
Theorem C100_supported_iff : forall v m p, header_wf (v_header v) -> h_product (v_header v) = [p] ->
  snd (var_supported_by v (Some m)) = Ok true <-> addressed (h_magic (v_header v)) p m /\ Forall (fits m) (v_entries v).
Proof.
  intros v m p W P. unfold M_Os.var_supported_by. pose proof (C10_targets_exact _ W) as T.
  destruct (header_targets (v_header v)) as [l|x].
  - specialize (T p P m). rewrite obind_lift. destruct (existsb (model_eqb m) l) eqn:E.
    + assert (I : In m l) by (apply existsb_exists in E as (y & I & Q); apply model_eqb_spec in Q; now subst).
      rewrite oall_true. assert (Q : Forall (fun a => snd (base_supported OS os_gt os_lt INITIAL illegal_since os_of sheet ns gv ps a m) = Ok true) (v_entries v) <-> Forall (fits m) (v_entries v)).
      { rewrite !Forall_forall. split; intros H e Ie; apply fits_base; auto. }
      rewrite Q. tauto.
    + split; [discriminate|]. intros [A _]. apply T in A. exfalso.
      assert (Q : existsb (model_eqb m) l = true) by (apply existsb_exists; exists m; split; [exact A|now apply model_eqb_spec]). congruence.
  - destruct T as [-> T]. split; [discriminate|]. intros [[A _] _]. exfalso. exact (T m A).
Qed.
(** The var's own model is the default; without any model there is an error. *)
Theorem C100_default_model : forall v, var_supported_by v None =
  match v_model v with Some m => var_supported_by v (Some m) | None => oerr ValueError end.
Proof. intros v. unfold M_Os.var_supported_by. destruct (v_model v); reflexivity. Qed.
(** Saving warns about exactly the entries whose OS is newer than the latest one of
    the var's model, provided every entry has an answer. *)
Lemma unsupported_spec m : forall es oss n, Forall2 (fun e os => entry_min_os e = oret os) es oss ->
  exists ns', unsupported_from OS os_gt INITIAL illegal_since os_of sheet ns gv ps n m es = oret ns' /\
  (forall k, In k ns' <-> exists i os, k = n + Z.of_nat i /\ nth_error oss i = Some os /\ os_gt os (latest m) = true).
Proof.
  induction es as [|e es IH]; intros oss n F; inversion F as [|? os ? oss' M F']; subst.
  - exists []. split; [reflexivity|]. intros k. split; [intros []|]. intros ([|i] & os & _ & Q & _); discriminate Q.
  - destruct (IH oss' (n + 1) F') as (r & E & SP). cbn [unsupported_from]. rewrite M, obind_oret, E, obind_oret. unfold M_Os.latest.
    eexists. split; [reflexivity|]. intros k.
    assert (R : In k r <-> exists i os, k = n + Z.of_nat (S i) /\ nth_error oss' i = Some os /\ os_gt os (latest m) = true).
    { rewrite SP. split; intros (i & o & K & Q); exists i, o; (split; [lia|exact Q]). }
    destruct (os_gt os (os_of m (s2l "latest"))) eqn:G.
    + split.
      * intros [<-|I]; [exists 0%nat, os; split; [lia|]; split; [reflexivity|exact G]|].
        apply R in I as (i & o & K & Q). exists (S i), o. auto.
      * intros ([|i] & o & K & Q & H); [left; lia|right; apply R; exists i, o; auto].
    + rewrite R. split.
      * intros (i & o & K & Q). exists (S i), o. auto.
      * intros ([|i] & o & K & Q & H); [cbn in Q; injection Q as <-; congruence|exists i, o; auto].
Qed.
Theorem C100_save : forall v m oss, v_model v = Some m -> Forall2 (fun e os => entry_min_os e = oret os) (v_entries v) oss ->
  exists l, save_warnings v = oret l /\
  forall k, In k l <-> exists i os, k = 1 + Z.of_nat i /\ nth_error oss i = Some os /\ os_gt os (latest m) = true.
Proof. intros v m oss M F. unfold M_Os.save_warnings. rewrite M. now apply unsupported_spec. Qed.
(** A single entry without an answer prevents saving, if the var has a model. *)
Theorem C100_save_refuted : forall v m pre e post x, v_model v = Some m -> v_entries v = pre ++ e :: post ->
  Forall (fun y => exists w os, entry_min_os y = (w, Ok os)) pre -> snd (entry_min_os e) = Err x -> snd (save_warnings v) = Err x.
Proof.
  intros v m pre e post x M E F H. unfold M_Os.save_warnings. rewrite M, E. clear M E. generalize 1.
  induction F as [|y pre (w & os & Y) F IH]; intros n; cbn [app unsupported_from].
  - destruct (entry_min_os e) as [w r]. cbn in H. subst r. reflexivity.
  - rewrite Y. cbn [obind]. specialize (IH (n + 1)). destruct (unsupported_from _ _ _ _ _ _ _ _ _ (n + 1) m (pre ++ e :: post)) as [w2 r].
    cbn in IH. subst r. reflexivity.
Qed.
(** So a var with a target model and a complex number with a negative part cannot
    be saved. *)
Theorem C100_save_complex_refuted : forall v m e D w, v_model v = Some m -> v_entries v = [e] ->
  In (e_cls e) complex_classes -> e_data e = Buf w D -> (10 <= length D)%nat -> negative (nth 0 D 0) \/ negative (nth 9 D 0) ->
  snd (save_warnings v) = Err TypeError.
Proof.
  intros v m e D w M E C X L N. apply (C100_save_refuted v m [] e [] TypeError M E); [constructor|].
  destruct (C98_negative_refuted e D w m C X L N) as [Q _]. now rewrite Q.
Qed.

(** ** C101: the text of an equation in a GDB *)
Notation graphed_string := (graphed_string OS os_gt INITIAL illegal_since sheet).
Notation graphed_min_os := (graphed_min_os OS os_gt INITIAL illegal_since sheet).
(** Flags, length word and tokens. *)
Definition equation_with (q : geq) (flags : Z) (ts : list (token OS)) : Prop :=
  q_data q = flags :: le16 (zlen (concat (map t_bits ts))) ++ concat (map t_bits ts).
Definition text (ts : list (token OS)) : str := concat (map t_display ts).
Lemma graphed_is q f ts : equation_with q f ts ->
  graphed_data q = zlen (concat (map t_bits ts)) / 256 :: concat (map t_bits ts).
Proof. intros E. unfold graphed_data. rewrite E. reflexivity. Qed.
Lemma tokens_nonzero ts : prefix_free sheet -> Forall (on_sheet sheet) ts -> ts <> [] ->
  forallb (fun x => x =? 0) (concat (map t_bits ts)) = false.
Proof.
  intros [K _] F N. destruct ts as [|t ts]; [contradiction|]. inversion F as [|? ? Ht _]; subst. destruct (K _ _ Ht) as (L & Z0).
  cbn [map concat]. destruct (t_bits t) as [|a r]; [destruct L; discriminate|]. cbn [hd] in Z0. cbn. replace (a =? 0) with false by lia. reflexivity.
Qed.
(** An empty equation has the empty text; the text of any other one of fewer than
    256 bytes starts with the escape of a null byte. *)
Theorem C101_empty : forall q f, equation_with q f [] -> graphed_string q = oret [].
Proof.
  intros q f E. unfold M_Os.graphed_string. rewrite (graphed_is q f [] E). reflexivity.
Qed.
Theorem C101_text_refuted : forall q f ts, prefix_free sheet -> Forall (on_sheet sheet) ts -> ts <> [] ->
  equation_with q f ts -> zlen (concat (map t_bits ts)) < 256 ->
  exists w, graphed_string q = (WDecode :: w, Ok (s2l "\x00" ++ text ts)).
Proof.
  intros q f ts P F N E L. unfold M_Os.graphed_string. rewrite (graphed_is q f ts E).
  rewrite Z.div_small by (split; [apply Zle_0_nat|exact L]).
  destruct (decode_parse os_gt INITIAL illegal_since sheet (0 :: concat (map t_bits ts))) as (n & D & C). rewrite D. clear D.
  assert (X : parse illegal_since sheet (0 :: concat (map t_bits ts)) = (false, illegal OS illegal_since [0]) :: map (fun t => (true, t)) ts).
  { cbn [parse]. rewrite Z.eqb_refl, tokens_nonzero by assumption. f_equal. now apply parse_concat. }
  rewrite X in *. destruct n as [|n]; [destruct C as [C _]; specialize (C eq_refl); discriminate C|].
  exists (repeat WDecode n). cbn [obind repeat app oret]. rewrite app_nil_r. f_equal. f_equal. cbn [fst map snd concat]. unfold text.
  rewrite !map_map. reflexivity.
Qed.
(** The OS found is nevertheless the right one. *)
Theorem C101_min_os : forall rank q f ts, ranked os_gt rank -> prefix_free sheet -> Forall (on_sheet sheet) ts ->
  equation_with q f ts -> zlen (concat (map t_bits ts)) < 256 ->
  exists w os, graphed_min_os q = (w, Ok os) /\ is_max rank INITIAL (map t_since ts) os.
Proof.
  intros rank q f ts R P F E L. unfold M_Os.graphed_min_os. rewrite (graphed_is q f ts E).
  rewrite Z.div_small by (split; [apply Zle_0_nat|exact L]).
  destruct (decode_parse os_gt INITIAL illegal_since sheet (0 :: concat (map t_bits ts))) as (n & D & _). rewrite D. clear D.
  destruct ts as [|t ts]; [do 2 eexists; split; [reflexivity|]; split; [now left|]; split; [reflexivity|constructor]|].
  assert (X : parse illegal_since sheet (0 :: concat (map t_bits (t :: ts))) = (false, illegal OS illegal_since [0]) :: map (fun t => (true, t)) (t :: ts)).
  { cbn [parse]. rewrite Z.eqb_refl, tokens_nonzero by (assumption || discriminate). f_equal. now apply parse_concat. }
  rewrite X. do 2 eexists. split; [reflexivity|]. cbn [snd]. unfold sinces. cbn [fold_left fst]. fold (sinces os_gt (map (fun t => (true, t)) (t :: ts)) INITIAL).
  now apply sinces_max.
Qed.

(** ** C102: groups, GDBs and the remaining classes *)
Lemma rd_length n l : (length (fst (rd n l)) + length (snd (rd n l)) = length l)%nat.
Proof. unfold rd. cbn [fst snd]. rewrite <- app_length. now rewrite firstn_skipn. Qed.
Lemma section_length c l d r : load_data_section c l = (d, r) -> (length d + length r <= length l)%nat.
Proof.
  intros H. assert (G : forall n l d r, rd n l = (d, r) -> (length d + length r = length l)%nat).
  { intros n l' d' r' E. pose proof (rd_length n l') as Q. rewrite E in Q. exact Q. }
  assert (R : forall n l, (let '(x, l) := rd 2 l in let '(y, l) := rd (n x) l in (x ++ y, l)) = (d, r) -> (length d + length r <= length l)%nat).
  { intros n l' E. destruct (rd 2 l') as [x l1] eqn:E1. destruct (rd (n x) l1) as [y l2] eqn:E2. injection E as <- <-.
    apply G in E1, E2. rewrite app_length. lia. }
  assert (K : forall k, match k with Some k => rd (Z.to_nat k) l | None => (l, []) end = (d, r) -> (length d + length r <= length l)%nat).
  { intros [k|] E; [apply G in E; lia|]. injection E as <- <-. cbn. lia. }
  destruct c; cbn -[rd Z.to_nat eq_section] in H; try (eapply (R (fun n => Z.to_nat (le_int n))); exact H); try (eapply (K (Some _)); exact H); try (eapply (K None); exact H).
  - destruct (rd 1 l) as [a l1] eqn:E1. destruct (rd 1 l1) as [b l2] eqn:E2. destruct (rd _ l2) as [x l3] eqn:E3. injection H as <- <-.
    apply G in E1, E2, E3. rewrite !app_length. lia.
  - unfold eq_section in H. destruct (rd 1 l) as [a l1] eqn:E1. destruct (rd 2 l1) as [b l2] eqn:E2. destruct (rd _ l2) as [x l3] eqn:E3. injection H as <- <-.
    apply G in E1, E2, E3. rewrite !app_length. lia.
Qed.
Lemma rd_rest n l : (length (snd (rd n l)) <= length l)%nat.
Proof. pose proof (rd_length n l). lia. Qed.
Lemma vat_length t l w p n l' : read_vat t l = (w, Ok (p, n, l')) -> (length l' <= length l)%nat.
Proof.
  unfold read_vat. pose proof rd_rest as G. destruct (is_named t); [|destruct (is_list t)].
  - pose proof (G 4%nat l) as G1. destruct (rd 4 l) as [y l1]. destruct (rev y) as [|k [|q r]]; try discriminate.
    intros H. apply obind_ok in H as (? & ? & ? & _ & H & _). pose proof (G (Z.to_nat k) l1) as G2. destruct (rd (Z.to_nat k) l1) as [nm l2].
    injection H as _ _ _ <-. cbn [snd] in *. lia.
  - pose proof (G 4%nat l) as G1. destruct (rd 4 l) as [y l1]. destruct (rev y) as [|k [|q r]]; try discriminate.
    intros H. apply obind_ok in H as (? & ? & ? & _ & H & _).
    assert (Q : exists nm l2, (if k =? 0 then (l1, []) else rd (Z.to_nat (k - 1)) l1) = (nm, l2) /\ (length l2 <= length l1)%nat).
    { destruct (k =? 0); [exists l1, []; split; [reflexivity|cbn; lia]|]. pose proof (G (Z.to_nat (k - 1)) l1) as G2. destruct (rd _ l1) as [nm l2]. eauto. }
    destruct Q as (nm & l2 & E & L2). rewrite E in H. pose proof (G 1%nat l2) as G3. destruct (rd 1 l2) as [z l3].
    injection H as _ _ _ <-. cbn [snd] in *. lia.
  - pose proof (G 3%nat l) as G1. destruct (rd 3 l) as [y l1]. destruct (rev y) as [|q r]; try discriminate.
    pose proof (G 3%nat l1) as G2. destruct (rd 3 l1) as [nm l2]. intros H. injection H as _ _ _ <-. cbn [snd] in *. lia.
Qed.
Lemma ungroup_one_length flash tb l w x l' : ungroup_one ns gv ps flash tb l = (w, Ok (x, l')) ->
  (length (b_data (e_data x)) + length l' <= length l)%nat.
Proof.
  unfold ungroup_one. pose proof (rd_rest 2 l) as G. destruct (rd 2 l) as [y l1]. cbn [snd] in G. destruct y as [|y0 [|ver [|]]]; try discriminate.
  cbv zeta. intros H. apply obind_ok in H as (? & [[page name] l2] & ? & V & H & _). apply vat_length in V.
  apply obind_ok in H as (? & e1 & ? & _ & H & _). apply obind_ok in H as (? & e2 & ? & _ & H & _). apply obind_ok in H as (? & e3 & ? & _ & H & _).
  destruct (load_data_section _ l2) as [d l3] eqn:D. apply section_length in D.
  destruct (cls_eqb _ KGraphedEquation); [discriminate H|]. injection H as _ <- <-. cbn. lia.
Qed.
Lemma ungroup_loop_length flash fuel : forall l w es, ungroup_loop ns gv ps fuel flash l = (w, Ok es) ->
  Forall (fun x => (length (b_data (e_data x)) < length l)%nat) es.
Proof.
  induction fuel as [|fuel IH]; intros [|tb l] w es H; cbn [ungroup_loop] in H.
  - injection H as _ <-. constructor.
  - discriminate H.
  - injection H as _ <-. constructor.
  - apply obind_ok in H as (? & [x l'] & ? & V & H & _). apply ungroup_one_length in V.
    apply obind_ok in H as (? & r & ? & R & H & _). injection H as _ <-. apply IH in R.
    constructor; [cbn; lia|]. eapply Forall_impl; [|exact R]. cbn. intros. lia.
Qed.
Lemma data_length e : (length (data e) <= length (b_data (e_data e)))%nat.
Proof.
  unfold data. unfold view_get. set (v := fst (data_view (e_cls e))).
  assert (V : exists a, v_start v = a /\ v_stop v = None) by (subst v; destruct (e_cls e); cbn; eauto). destruct V as (a & -> & ->).
  unfold py_slice. rewrite firstn_length, skipn_length. lia.
Qed.
Lemma omapM_ext {A B} (f g : A -> out B) l : (forall a, In a l -> f a = g a) -> omapM f l = omapM g l.
Proof. induction l as [|a l IH]; intros H; [reflexivity|]. cbn [omapM]. rewrite H by now left. rewrite IH; [reflexivity|]. intros; apply H; now right. Qed.
Lemma min_os_fuel : forall n f1 f2 e, (length (data e) <= n)%nat -> (n < f1)%nat -> (n < f2)%nat -> min_os f1 e None = min_os f2 e None.
Proof.
  induction n as [|n IH]; intros [|f1] [|f2] e L F1 F2; try lia; cbn [M_Os.min_os]; (destruct (issubclass (e_cls e) KGroup); [|reflexivity]).
  - unfold ungroup. destruct (data e); [reflexivity|cbn in L; lia].
  - destruct (ungroup ns gv ps e None) as [w [es|x]] eqn:U; [|reflexivity]. cbn [obind].
    assert (Q : Forall (fun x => (length (data x) <= n)%nat) es).
    { unfold ungroup in U. apply ungroup_loop_length in U. eapply Forall_impl; [|exact U]. intros a H. cbn in H. pose proof (data_length a). lia. }
    rewrite (omapM_ext (fun x => min_os f1 x None) (fun x => min_os f2 x None)); [reflexivity|].
    intros a I. rewrite Forall_forall in Q. apply IH; auto; lia.
Qed.
(** Nesting is no problem: a bound above the length of the data changes nothing,
    and the OS of a group is computed from those of its members. *)
Theorem C102_depth : forall fuel e, (length (data e) < fuel)%nat -> min_os fuel e None = entry_min_os e.
Proof. intros fuel e L. unfold M_Os.entry_min_os. apply (min_os_fuel (length (data e))); lia. Qed.
Theorem C102_group : forall g, e_cls g = KGroup ->
  entry_min_os g = do es := ungroup ns gv ps g None in do l := omapM entry_min_os es in oret (os_max l).
Proof.
  intros g C. unfold M_Os.entry_min_os at 1. cbn [M_Os.min_os]. rewrite C. change (issubclass KGroup KGroup) with true. cbv iota.
  destruct (ungroup ns gv ps g None) as [w [es|x]] eqn:U; [|reflexivity]. cbn [obind].
  assert (Q : Forall (fun x => (length (data x) < length (data g))%nat) es).
  { unfold ungroup in U. apply ungroup_loop_length in U. eapply Forall_impl; [|exact U]. intros a H. cbn in H. pose proof (data_length a). lia. }
  rewrite (omapM_ext (fun x => min_os (length (data g)) x None) entry_min_os); [reflexivity|].
  intros a I. rewrite Forall_forall in Q. apply C102_depth. auto.
Qed.
(** It is the latest among them: the first answer that no other exceeds. *)
Theorem C102_max : forall rank l, ranked os_gt rank -> l <> [] -> In (os_max l) l /\ Forall (fun x => rank x <= rank (os_max l)) l.
Proof. intros rank l. apply os_max_spec. Qed.
Lemma equations_os rank qs tss : ranked os_gt rank -> prefix_free sheet ->
  Forall2 (fun q ts => Forall (on_sheet sheet) ts /\ (exists f, equation_with q f ts) /\ zlen (concat (map t_bits ts)) < 256) qs tss ->
  exists w os, (do l := omapM graphed_min_os qs in oret (os_max l)) = (w, Ok os) /\ is_max rank INITIAL (map t_since (concat tss)) os.
Proof.
  intros R P F.
  assert (H : exists w l, omapM graphed_min_os qs = (w, Ok l) /\ Forall2 (fun m ts => is_max rank INITIAL (map t_since ts) m) l tss).
  { induction F as [|q ts qs tss (H1 & (f & H2) & H3) F IH]; [exists [], []; split; [reflexivity|constructor]|].
    destruct (C101_min_os rank q f ts R P H1 H2 H3) as (w & os & M & S). destruct IH as (w2 & l & E & S2).
    cbn [omapM]. rewrite M. cbn [obind]. rewrite E. cbn. do 2 eexists. split; [reflexivity|]. constructor; assumption. }
  destruct H as (w & l & M & S). rewrite M. cbn [obind oret]. do 2 eexists. split; [reflexivity|]. clear M F.
  destruct l as [|m l].
  { inversion S; subst. cbn. split; [now left|]. split; [reflexivity|constructor]. }
  destruct (os_max_spec rank (m :: l) R) as (A & B); [discriminate|]. set (o := os_max (m :: l)) in *. clearbody o.
  assert (J : forall l, Forall2 (fun m ts => is_max rank INITIAL (map t_since ts) m) l tss ->
    (forall x, In x l -> rank x <= rank o) ->
    (In o l -> o = INITIAL \/ In o (map t_since (concat tss))) /\ Forall (fun x => rank x <= rank o) (map t_since (concat tss))).
  { clear. intros l S. induction S as [|m ts l tss (S1 & S2 & S3) S IH]; intros H; [split; [intros []|constructor]|].
    destruct IH as (A & B); [intros; apply H; now right|]. cbn [concat]. rewrite map_app. split.
    - intros [<-|I]; [destruct S1 as [->|I]; [now left|right; apply in_or_app; now left]|].
      destruct (A I) as [->|K]; [now left|right; apply in_or_app; now right].
    - apply Forall_app. split; [|exact B]. eapply Forall_impl; [|exact S3]. cbn. intros a Ha. specialize (H m (or_introl eq_refl)). lia. }
  destruct (J (m :: l) S) as (J1 & J2); [rewrite Forall_forall in B; exact B|].
  split; [now apply J1|]. split; [|exact J2].
  inversion S as [|? ? ? ? (_ & S2 & _)]; subst. inversion B; subst. lia.
Qed.
(** A GDB needs what the most demanding token of its equations needs. *)
Theorem C102_gdb : forall rank e qs tss, ranked os_gt rank -> prefix_free sheet -> issubclass (e_cls e) KMonoGDB = true ->
  equations (e_cls e) (b_data (e_data e)) = qs ->
  Forall2 (fun q ts => Forall (on_sheet sheet) ts /\ (exists f, equation_with q f ts) /\ zlen (concat (map t_bits ts)) < 256) qs tss ->
  exists w os, entry_min_os e = (w, Ok os) /\ is_max rank INITIAL (map t_since (concat tss)) os.
Proof.
  intros rank e qs tss R P C E F. unfold M_Os.entry_min_os. cbn [M_Os.min_os].
  assert (G : issubclass (e_cls e) KGroup = false) by (destruct (e_cls e); try discriminate C; reflexivity). rewrite G.
  assert (X : plain_min_os OS os_gt INITIAL illegal_since os_of sheet ns ps e None = gdb_min_os OS os_gt INITIAL illegal_since sheet e None).
  { unfold plain_min_os. destruct (e_cls e); try discriminate C; reflexivity. }
  rewrite X. unfold gdb_min_os. cbv zeta. rewrite E. now apply equations_os.
Qed.
(** Given other data, what the equations of that data need. *)
Theorem C102_gdb_given : forall rank e d qs tss, ranked os_gt rank -> prefix_free sheet -> issubclass (e_cls e) KMonoGDB = true ->
  d <> [] -> equations_of (e_cls e) d = qs ->
  Forall2 (fun q ts => Forall (on_sheet sheet) ts /\ (exists f, equation_with q f ts) /\ zlen (concat (map t_bits ts)) < 256) qs tss ->
  exists w os, plain_min_os OS os_gt INITIAL illegal_since os_of sheet ns ps e (Some d) = (w, Ok os) /\ is_max rank INITIAL (map t_since (concat tss)) os.
Proof.
  intros rank e d qs tss R P C N E F.
  assert (X : plain_min_os OS os_gt INITIAL illegal_since os_of sheet ns ps e (Some d) = gdb_min_os OS os_gt INITIAL illegal_since sheet e (Some d)).
  { unfold plain_min_os. destruct (e_cls e); try discriminate C; reflexivity. }
  rewrite X. unfold gdb_min_os. cbv zeta. destruct d; [congruence|]. rewrite E. now apply equations_os.
Qed.
(** Tokenised entries need what their most demanding token needs; assembly programs
    what the newest of the three markers they contain anywhere needs. *)
Theorem C102_tokens : forall rank e ts, ranked os_gt rank -> prefix_free sheet -> issubclass (e_cls e) KTokenized = true ->
  is_tokenized (e_cls e) = true -> Forall (on_sheet sheet) ts -> data e = concat (map t_bits ts) ->
  exists os, entry_min_os e = oret os /\ is_max rank INITIAL (map t_since ts) os.
Proof.
  intros rank e ts R P C T F D. unfold M_Os.entry_min_os. cbn [M_Os.min_os].
  assert (G : issubclass (e_cls e) KGroup = false) by (destruct (e_cls e); try discriminate C; reflexivity). rewrite G.
  assert (X : plain_min_os OS os_gt INITIAL illegal_since os_of sheet ns ps e None = get_min_os OS os_gt INITIAL illegal_since sheet os_of e None).
  { unfold plain_min_os. destruct (e_cls e); try discriminate C; reflexivity. }
  rewrite X. unfold get_min_os, or_data. rewrite T, D.
  destruct (decode_parse os_gt INITIAL illegal_since sheet (concat (map t_bits ts))) as (n & E & Q). rewrite E. clear E X G.
  rewrite (parse_concat os_gt illegal_since sheet ts P F) in *.
  assert (N : n = 0%nat) by (apply Q; clear; unfold clean; induction ts; [reflexivity|assumption]). subst n.
  eexists. split; [reflexivity|]. cbn [snd]. now apply sinces_max.
Qed.
Definition markers : list (bytes * OS) := [([187; 109], os_of TI_83P []); ([239; 105], os_of TI_84PCSE []); ([239; 123], os_of TI_84PCE [])].
Definition occurs (p d : bytes) : Prop := exists u v, d = u ++ p ++ v.
Lemma infix_occurs p d : infix p d = true <-> occurs p d.
Proof.
  rewrite (infix_spec p d). unfold occurs. firstorder.
Qed.
Theorem C102_asm : forall rank e, ranked os_gt rank -> In (e_cls e) [KAsmProgram; KProtectedAsmProgram] ->
  exists os, entry_min_os e = oret os /\
  ((exists p, In (p, os) markers /\ occurs p (data e)) \/ (os = INITIAL /\ forall p o, In (p, o) markers -> ~ occurs p (data e))) /\
  (forall p o, In (p, o) markers -> occurs p (data e) -> rank o <= rank os).
Proof.
  intros rank e R C. unfold M_Os.entry_min_os. cbn [M_Os.min_os]. unfold plain_min_os.
  assert (X : issubclass (e_cls e) KGroup = false /\ issubclass (e_cls e) KRealEntry = false /\ issubclass (e_cls e) KComplexEntry = false /\
    issubclass (e_cls e) KList || issubclass (e_cls e) KMatrix = false /\ issubclass (e_cls e) KTokenized = true /\ is_tokenized (e_cls e) = false)
    by (cbn in C; destruct C as [<-|[<-|[]]]; repeat split; reflexivity).
  destruct X as (X1 & X2 & X3 & X4 & X5 & X6). cbv zeta. rewrite X1, X2, X3, X4, X5. unfold get_min_os, or_data. rewrite X6.
  set (l := map snd (filter (fun p => infix (fst p) (data e)) (asm_tokens_os OS os_of))).
  assert (L : forall o, In o l <-> exists p, In (p, o) markers /\ occurs p (data e)).
  { intros o. subst l. rewrite in_map_iff. split.
    - intros ([p o'] & <- & I). apply filter_In in I as [I Q]. cbn [fst snd] in *. exists p. split; [exact I|now apply infix_occurs].
    - intros (p & I & Q). exists (p, o). split; [reflexivity|]. apply filter_In. split; [exact I|now apply infix_occurs]. }
  exists (os_max l). split; [destruct l; reflexivity|]. clearbody l. destruct l as [|x l].
  - split; [right; split; [reflexivity|]|]; intros p o I Q; assert (K : In o []) by (apply L; eauto); destruct K.
  - destruct (os_max_spec rank (x :: l) R) as (A & B); [discriminate|]. split; [left; now apply L|].
    intros p o I Q. rewrite Forall_forall in B. apply B, L. eauto.
Qed.
(** The classes with a fixed answer. *)
Theorem C102_fixed : forall e,
  (In (e_cls e) [KMonoPicture; KAppVar] -> entry_min_os e = oret (os_of TI_83P [])) /\
  (In (e_cls e) [KTIPicture; KImage] -> entry_min_os e = oret (os_of TI_84PCSE [])) /\
  (In (e_cls e) [KEntry; KSized; KPicture; KSettings; KWindow; KRecallWindow; KTable] -> entry_min_os e = oret INITIAL).
Proof.
  intros e. unfold M_Os.entry_min_os. cbn [M_Os.min_os]. unfold plain_min_os.
  destruct (e_cls e); cbn; repeat split; intros H; intuition discriminate.
Qed.

(** ** What the answers miss *)
(** C97: on a model older than MathPrint a fraction is refused, its negative is
    not. *)
Theorem C97_sign_refuted : forall m, os_lt INITIAL (latest m) = true -> os_lt mathprint (latest m) = false ->
  exists e e' r, e_cls e = KRealFraction /\ e_cls e' = KRealFraction /\ calc_data e = 24 :: r /\ calc_data e' = 24 + 128 :: r /\
  supported_by e m = oret false /\ supported_by e' m = oret true.
Proof.
  intros m I M. exists (num KRealFraction 24 [24; 127; 80; 0; 0; 0; 0; 0; 0]), half, [127; 80; 0; 0; 0; 0; 0; 0].
  do 4 (split; [reflexivity|]). split.
  - destruct (C97_supported (num KRealFraction 24 [24; 127; 80; 0; 0; 0; 0; 0; 0]) 24 [127; 80; 0; 0; 0; 0; 0; 0] true m) as (os & E & S);
      [cbn; tauto|reflexivity|split; [lia|reflexivity]|].
    assert (Q : entry_min_os (num KRealFraction 24 [24; 127; 80; 0; 0; 0; 0; 0; 0]) = oret mathprint) by reflexivity.
    rewrite Q in E. assert (O : mathprint = os) by (unfold oret in E; congruence). subst os. cbn beta in S, M. rewrite M in S. exact S.
  - destruct (C97_supported half 152 [127; 80; 0; 0; 0; 0; 0; 0] true m) as (os & E & S); [cbn; tauto|reflexivity|split; [lia|reflexivity]|].
    assert (Q : entry_min_os half = oret INITIAL) by reflexivity.
    rewrite Q in E. assert (O : INITIAL = os) by (unfold oret in E; congruence). subst os. cbn beta in S, I. rewrite I in S. exact S.
Qed.
(** C99: a list of radicals is supported by models that do not support the radical
    itself. *)
Theorem C99_exact_refuted : forall m, names_ok ns -> existsb (model_eqb m) exact_models = false -> os_lt INITIAL (latest m) = true ->
  exists e x, e_cls e = KRealList /\ elements e 9 [calc_data x; calc_data x] /\ e_cls x = KRealRadical /\
  supported_by x m = oret false /\ supported_by e m = oret true.
Proof.
  intros m N X I. set (x := num KRealRadical 28 [28; 33; 16; 32; 16; 0; 0; 0; 0]).
  set (e := Entry KRealList [13; 0] [1] [93; 0; 0; 0; 0; 0; 0; 0] [0] [0] (Buf true ([2; 0] ++ concat [calc_data x; calc_data x]))).
  assert (EL : elements e 9 [calc_data x; calc_data x]).
  { exists []. split; [reflexivity|]. split; [repeat constructor|]. cbn. lia. }
  exists e, x. split; [reflexivity|]. split; [exact EL|]. split; [reflexivity|]. split.
  - destruct (C97_supported x 28 [33; 16; 32; 16; 0; 0; 0; 0] true m) as (os & E & S); [cbn; tauto|reflexivity|split; [lia|reflexivity]|].
    cbn beta in S. rewrite X in S. rewrite S. f_equal. f_equal. apply andb_false_r.
  - destruct (list_min e 9 [calc_data x; calc_data x] N) as (y & YC & M); [cbn; auto|reflexivity|exact EL|].
    assert (Q : omapM (fun t => elem_min_os OS INITIAL os_of y (Some t)) [calc_data x; calc_data x] = oret [INITIAL; INITIAL]).
    { unfold elem_min_os. rewrite YC. reflexivity. }
    rewrite Q, obind_oret in M.
    assert (H : os_max [INITIAL; INITIAL] = INITIAL) by (cbn; destruct (os_gt INITIAL INITIAL); reflexivity). rewrite H in M.
    unfold oret in M. rewrite (C99_supported e m _ _ N (or_introl eq_refl) M). cbn beta in I |- *. rewrite I. reflexivity.
Qed.
End Support.

(** ** A concrete instance: versions are numbers, ordered by model first. *)
Definition version0 (v : str) : Z := if leqb v (s2l "latest") then 999 else if leqb v (s2l "2.53") then 253 else if leqb v (s2l "2.55") then 255 else 0.
Definition os0 (m : model) (v : str) : Z := (1 + model_index m) * 1000 + version0 v.
Notation need0 := (entry_min_os Z Z.gtb 0 0 os0 sheet0 ns0 gv0 ps0).
Notation supp0 := (supported_by Z Z.gtb Z.ltb 0 0 os0 sheet0 ns0 gv0 ps0).
Notation vsupp0 := (var_supported_by Z Z.gtb Z.ltb 0 0 os0 sheet0 ns0 gv0 ps0).
Notation warn0 := (save_warnings Z Z.gtb 0 0 os0 sheet0 ns0 gv0 ps0).
Notation string0 := (graphed_string Z Z.gtb 0 0 sheet0).
Notation load0 := (graphed_load Z Z.gtb 0 0 (fun s => s) (from_tokens kz)).
Definition root : entry := num KRealRadical 28 [28; 33; 16; 32; 16; 0; 0; 0; 0].

(** C100: a var is supported by a model that supports none of its entries; and an
    entry that needs exactly the latest OS makes its var unsupported, but is saved
    without a warning. *)
Theorem C100_entries_refuted : exists v e m, v_entries v = [e] /\ vsupp0 v (Some m) = oret true /\ supp0 e m = oret false.
Proof. exists (Var some_header [root] (Some TI_84P)), root, TI_84P. repeat split; vm_compute; reflexivity. Qed.
Theorem C100_equal_refuted : exists os_of v e m, v_entries v = [e] /\ v_model v = Some m /\ entry_min_os Z Z.gtb 0 0 os_of sheet0 ns0 gv0 ps0 e = oret (os_of m (s2l "latest")) /\
  var_supported_by Z Z.gtb Z.ltb 0 0 os_of sheet0 ns0 gv0 ps0 v None = oret false /\ save_warnings Z Z.gtb 0 0 os_of sheet0 ns0 gv0 ps0 v = oret [].
Proof.
  exists (fun m _ => model_index m), (Var some_header [num KRealFraction 24 [24; 127; 80; 0; 0; 0; 0; 0; 0]] (Some TI_84P)), (num KRealFraction 24 [24; 127; 80; 0; 0; 0; 0; 0; 0]), TI_84P.
  repeat split; vm_compute; reflexivity.
Qed.
(** C101: loading the text of an equation back makes the equation longer. *)
Theorem C101_reload_refuted : exists q w s q', string0 q = (w, Ok s) /\ load0 s q = Ok q' /\
  q_data q = [3; 2; 0; 66; 66] /\ q_data q' = [3; 3; 0; 0; 66; 66].
Proof. exists (Geq [3; 2; 0; 66; 66] None None). do 3 eexists. repeat split; vm_compute; reflexivity. Qed.

Example C97_example :
  need0 (num KRealFraction 24 [24; 127; 80; 0; 0; 0; 0; 0; 0]) = oret (os0 TI_84P (s2l "2.53")) /\ need0 half = oret 0 /\
  supp0 (num KRealFraction 24 [24; 127; 80; 0; 0; 0; 0; 0; 0]) TI_83P = oret false /\ supp0 half TI_83P = oret true /\
  supp0 root TI_84PCE = oret false /\ supp0 root TI_83PCE = oret true.
Proof. repeat split; vm_compute; reflexivity. Qed.
Definition cnum (a b : Z) : entry := num KComplex 12 ([a; 128; 16; 0; 0; 0; 0; 0; 0] ++ [b; 129; 37; 0; 0; 0; 0; 0; 0]).
Example C98_example :
  need0 (cnum 12 12) = oret (os0 TI_83 []) /\ need0 (cnum 12 27) = oret (os0 TI_84P (s2l "2.55")) /\
  need0 cplx0 = oerr TypeError /\ supp0 cplx0 TI_83PCE = oerr TypeError /\ need0 (cnum 12 29) = oerr TypeError /\
  supp0 (cnum 27 12) TI_84PCE = oret true /\ supp0 (cnum 27 12) TI_83P = oret false.
Proof. repeat split; vm_compute; reflexivity. Qed.
Definition list_of (c : cls) (xs : list bytes) : entry := Entry c [13; 0] [1] [93; 0; 0; 0; 0; 0; 0; 0] [0] [0] (Buf true (zlen xs :: 0 :: concat xs)).
Example C99_example :
  elements (list_of KRealList [calc_data one; calc_data half; 25 :: zeros 8]) 9 [calc_data one; calc_data half; 25 :: zeros 8] /\
  need0 (list_of KRealList [calc_data one; calc_data half; 25 :: zeros 8]) = oret (os0 TI_84P (s2l "2.53")) /\
  need0 (list_of KRealList [calc_data one; calc_data half]) = oret 0 /\
  need0 (list_of KComplexList [calc_data (cnum 12 12); calc_data (cnum 12 27)]) = oret (os0 TI_84P (s2l "2.55")) /\
  need0 (list_of KComplexList [calc_data (cnum 12 12); calc_data cplx0]) = oerr TypeError.
Proof. split; [exists []; split; [reflexivity|]; split; [repeat constructor|cbn; lia]|]. repeat split; vm_compute; reflexivity. Qed.
Example C100_example :
  vsupp0 (Var some_header [one; one] (Some TI_84P)) None = oret true /\ vsupp0 (Var some_header [one; cnum 12 27] (Some TI_83P)) None = oret false /\
  warn0 (Var some_header [one; cnum 12 27; cnum 12 12; cnum 27 27] (Some TI_83P)) = oret [2; 4] /\
  vsupp0 (Var some_header [one] None) None = oerr ValueError /\ vsupp0 (Var some_header [one] None) (Some TI_82) = oret false /\
  warn0 (Var some_header [one; cplx0] (Some TI_84P)) = oerr TypeError /\ warn0 (Var some_header [one; cplx0] None) = oret [].
Proof. repeat split; vm_compute; reflexivity. Qed.
Example C101_example :
  equation_with (Geq [3; 4; 0; 66; 239; 0; 65] None None) 3 [kB; kClock; kA] /\
  string0 (Geq [3; 4; 0; 66; 239; 0; 65] None None) = ([WDecode], Ok (s2l "\x00BsetDate(A")) /\
  snd (graphed_min_os Z Z.gtb 0 0 sheet0 (Geq [3; 4; 0; 66; 239; 0; 65] None None)) = Ok 4.
Proof. repeat split; vm_compute; reflexivity. Qed.
Definition gdb0 : entry := Entry KMonoFunc [13; 0] [8] [97; 0; 0; 0; 0; 0; 0; 0] [0] [128]
  (Buf true ([133; 0; 0; 16] ++ zeros 66 ++ zeros 10 ++ [3; 4; 0; 66; 239; 0; 65] ++ [3; 2; 0; 187; 1] ++ concat (repeat [3; 0; 0] 8))).
Example C102_example :
  equations KMonoFunc (b_data (e_data gdb0)) = zip_equations ([3; 4; 0; 66; 239; 0; 65] :: [3; 2; 0; 187; 1] :: repeat [3; 0; 0] 8) (repeat [0] 10) (repeat [0] 10) /\
  snd (need0 gdb0) = Ok 7 /\ need0 (with_cls one KAppVar) = oret (os0 TI_83P []) /\
  snd (do g := group ns0 gv0 ps0 [one; num KRealFraction 24 [24; 127; 80; 0; 0; 0; 0; 0; 0]; root] (s2l "GROUP") in need0 g) = Ok (os0 TI_84P (s2l "2.53")) /\
  need0 (Entry KAsmProgram [13; 0] [6] [65; 0; 0; 0; 0; 0; 0; 0] [0] [0] (Buf true [5; 0; 187; 109; 239; 105; 1])) = oret (os0 TI_84PCSE []).
Proof. repeat split; vm_compute; reflexivity. Qed.
Print Assumptions C97_positive.
Print Assumptions C97_marked_refuted.
Print Assumptions C97_supported.
Print Assumptions C98_plain.
Print Assumptions C98_succeeds_iff.
Print Assumptions C98_negative_refuted.
Print Assumptions C98_exact_refuted.
Print Assumptions C98_supported.
Print Assumptions C99_real.
Print Assumptions C99_complex_refuted.
Print Assumptions C99_supported.
Print Assumptions C100_supported_iff.
Print Assumptions C100_default_model.
Print Assumptions C100_save.
Print Assumptions C100_save_refuted.
Print Assumptions C100_save_complex_refuted.
Print Assumptions C101_empty.
Print Assumptions C101_text_refuted.
Print Assumptions C101_min_os.
Print Assumptions C102_depth.
Print Assumptions C102_group.
Print Assumptions C102_max.
Print Assumptions C102_gdb.
Print Assumptions C102_gdb_given.
Print Assumptions C102_tokens.
Print Assumptions C102_asm.
Print Assumptions C102_fixed.
Print Assumptions C97_sign_refuted.
Print Assumptions C99_exact_refuted.
Print Assumptions C100_entries_refuted.
Print Assumptions C100_equal_refuted.
Print Assumptions C101_reload_refuted.
