(** C90: which kind of real number a part of a complex text is read as. *)
From Verif Require Import PyBase M_Data M_Numeric M_Flags M_Models M_Class M_Var M_Real M_Complex L_Base S_Data L_Data L_Var S_Real L_Real L_Radical S_Complex L_Complex L_Kinds P_Complex.

(** [refuses fp c p] (L_Kinds.v): building a real of class [c] from the text
    raises TypeError or ValueError.  [fp] is Python's [Fraction(text)]. *)
(** When the kind of the present real part refuses the text, the first kind in
    [real_order] that accepts it is stored. *)
Theorem C90_first_kind : forall fp s e t0 D sa A sb B u c1 t1 k1 c2 t2 k2 pre c t k post da db,
  e_type e = [t0] -> is_byte t0 -> e_data e = Buf true D -> length D = 18%nat -> wf_bytes D ->
  In (c1, t1, k1) part_kinds -> nth 0 D 0 mod 64 = t1 -> In (c2, t2, k2) part_kinds -> nth 9 D 0 mod 64 = t2 ->
  unspaced s = sa ++ A ++ sb ++ B ++ u -> plain A -> plain B -> is_unit u ->
  In sa [s2l ""; s2l "+"; s2l "-"] -> In sb [s2l "+"; s2l "-"] ->
  refuses fp c1 (unplus sa ++ A) -> real_order = pre ++ c :: post -> (forall x, In x pre -> refuses fp x (unplus sa ++ A)) ->
  In (c, t, k) part_kinds ->
  real_new fp c (unplus sa ++ A) = oret (Real c (Buf true da)) -> length da = 9%nat -> wf_bytes da ->
  real_new fp c2 (unplus sb ++ B) = oret (Real c2 (Buf true db)) -> length db = 9%nat -> wf_bytes db ->
  exists w e' da' db', complex_load fp s e = (w, Ok e') /\ e_cls e' = k2 /\ e_type e' = [t2] /\
    get_real e' = oret (Real c (Buf true da')) /\ same_number da da' /\ nth 0 da' 0 mod 64 = t /\
    get_imag e' = oret (Real c2 (Buf true db')) /\ same_number db db' /\ nth 0 db' 0 mod 64 = t2.
Proof.
  intros fp s e t0 D sa A sb B u c1 t1 k1 c2 t2 k2 pre c t k post da db ET B0 ED LD WD I1 T1 I2 T2 US PA PB U Ia Ib R1 O RP I NA La Wa NB Lb Wb.
  pose proof (parts_ok s sa A sb B u US PA PB U Ia Ib) as P.
  destruct (complex_load_search fp s e t0 D _ _ c1 t1 k1 c2 t2 k2 pre c t k post da db P) as [w E]; auto.
  destruct (part_kind_sub c t k I) as (_ & _ & _ & T). destruct (part_kind_sub c2 t2 k2 I2) as (_ & _ & _ & T2').
  eexists w, _, (retag t da), (retag t2 db). split; [exact E|]. split; [reflexivity|]. split; [reflexivity|].
  destruct (retag_same t da La Wa T) as [SA WA']. destruct (retag_same t2 db Lb Wb T2') as [SB WB'].
  split; [eapply (get_real_ok _ c t k); auto; reflexivity|]. split; [exact SA|].
  split; [destruct da as [|x da]; [discriminate La|]; apply Forall_cons_iff in Wa as [Bx _]; now apply retag_byte|].
  split; [eapply (get_imag_ok _ c2 t2 k2 db (retag t da)); auto; now rewrite retag_length|]. split; [exact SB|].
  destruct db as [|x db]; [discriminate Lb|]. apply Forall_cons_iff in Wb as [Bx _]. now apply retag_byte.
Qed.
Print Assumptions C90_first_kind.
(** When every kind refuses it, the load fails with ValueError. *)
Theorem C90_none : forall fp s e D sa A sb B u c1 t1 k1,
  e_data e = Buf true D -> length D = 18%nat -> In (c1, t1, k1) part_kinds -> nth 0 D 0 mod 64 = t1 ->
  unspaced s = sa ++ A ++ sb ++ B ++ u -> plain A -> plain B -> is_unit u ->
  In sa [s2l ""; s2l "+"; s2l "-"] -> In sb [s2l "+"; s2l "-"] ->
  (forall x, In x real_order -> refuses fp x (unplus sa ++ A)) ->
  exists w, complex_load fp s e = (w, Err ValueError).
Proof.
  intros fp s e D sa A sb B u c1 t1 k1 ED LD I1 T1 US PA PB U Ia Ib R.
  pose proof (parts_ok s sa A sb B u US PA PB U Ia Ib) as P.
  assert (R1 : refuses fp c1 (unplus sa ++ A)).
  { apply R. cbn in I1. cbn. repeat (destruct I1 as [I1|I1]; [injection I1 as <- <- <-; tauto|]). destruct I1. }
  destruct R1 as (w1 & x1 & N1 & C1).
  unfold complex_load. rewrite P. unfold olift at 1. rewrite obind_ret_l.
  destruct (part_types e D c1 t1 k1 ED LD I1) as [[RT RS] _]; [exact T1|]. rewrite RT. unfold olift at 1. rewrite obind_ret_l.
  rewrite N1. cbn [obind]. replace (caught x1) with true by (destruct C1; now subst x1).
  rewrite RS. unfold olift at 1. cbn [obind].
  destruct (try_none fp t1 (unplus sa ++ A) e registry) as [w2 E2]; [intros i k J K; apply R; now apply (registry_in i)|].
  rewrite E2. eexists. reflexivity.
Qed.
Print Assumptions C90_none.

(** The three notations beside decimals.  A text with a slash, a root or pi and
    without an exponent mark is no decimal. *)
Lemma real_refuses fp c p ch : foreign ch -> In ch p -> ~ In 101 p -> ~ In 69 p -> c = KReal \/ c = KUndefReal -> refuses fp c p.
Proof.
  intros F I N1 N2 C. exists [], ValueError. split; [|now right]. unfold real_new.
  destruct C as [->| ->]; [change (real_fresh KReal) with (@oret buffer (Buf true (zeros 9)))|change (real_fresh KUndefReal) with (@oret buffer (Buf true (14 :: zeros 8)))];
    rewrite obind_oret; cbn [part_load]; unfold real_load; rewrite (real_parse_foreign ch) by auto; reflexivity.
Qed.
Lemma fraction_refuses fp p x : fp (squash p) = Err x -> x = TypeError \/ x = ValueError -> refuses fp KRealFraction p.
Proof.
  intros E C. exists [], x. split; [|exact C]. unfold real_new. change (real_fresh KRealFraction) with (@oret buffer (Buf true (24 :: zeros 8))).
  rewrite obind_oret. cbn [part_load]. unfold fraction_load. rewrite E. reflexivity.
Qed.
Lemma unplus_in ch sa A : In ch A -> In ch (unplus sa ++ A). Proof. intros; apply in_or_app; now right. Qed.
Lemma unplus_no ch sa A : In sa [s2l ""; s2l "+"; s2l "-"] -> ch <> 45 -> ~ In ch A -> ~ In ch (unplus sa ++ A).
Proof.
  intros I N NA J. apply in_app_or in J as [J|J]; [|contradiction]. destruct I as [<-|[<-|[<-|[]]]]; vm_compute in J; intuition congruence.
Qed.

(** What is common to the next three theorems: a plain complex number, a real
    part [A] in some notation, and a decimal imaginary part. *)
Definition mixed_text (s : str) (e : entry) (sa A sb B u : str) (db : bytes) : Prop :=
  (exists t0 D, e_type e = [t0] /\ is_byte t0 /\ e_data e = Buf true D /\ length D = 18%nat /\ wf_bytes D /\
     nth 0 D 0 mod 64 = 12 /\ nth 9 D 0 mod 64 = 12) /\
  unspaced s = sa ++ A ++ sb ++ B ++ u /\ plain A /\ plain B /\ is_unit u /\
  In sa [s2l ""; s2l "+"; s2l "-"] /\ In sb [s2l "+"; s2l "-"] /\ ~ In 101 A /\ ~ In 69 A /\
  real_load (unplus sb ++ B) (Buf true (zeros 9)) = (Buf true db, oret tt) /\ length db = 9%nat /\ wf_bytes db.
(** Its outcome: the real part has class [c] and tag [t] and the number [da]. *)
Definition mixed_result (r : out entry) (c : cls) (t : Z) (da db : bytes) : Prop :=
  exists w e' da' db', r = (w, Ok e') /\ e_cls e' = KComplex /\ e_type e' = [12] /\
    get_real e' = oret (Real c (Buf true da')) /\ same_number da da' /\ nth 0 da' 0 mod 64 = t /\
    get_imag e' = oret (Real KReal (Buf true db')) /\ same_number db db' /\ nth 0 db' 0 mod 64 = 12.
Lemma mixed fp s e sa A sb B u db pre c t k post da : mixed_text s e sa A sb B u db ->
  real_order = pre ++ c :: post -> In KReal pre -> (forall x, In x pre -> refuses fp x (unplus sa ++ A)) -> In (c, t, k) part_kinds ->
  real_new fp c (unplus sa ++ A) = oret (Real c (Buf true da)) -> length da = 9%nat -> wf_bytes da ->
  mixed_result (complex_load fp s e) c t da db.
Proof.
  intros ((t0 & D & ET & B0 & ED & LD & WD & T1 & T2) & US & PA & PB & U & Ia & Ib & N1 & N2 & LB & Lb & Wb) O K R I NA La Wa.
  assert (I0 : In (KReal, 12, KComplex) part_kinds) by now left.
  refine (C90_first_kind fp s e t0 D sa A sb B u KReal 12 KComplex KReal 12 KComplex pre c t k post da db ET B0 ED LD WD I0 T1 I0 T2 US PA PB U Ia Ib (R _ K) O R I NA La Wa _ Lb Wb).
  now apply real_new_real.
Qed.
Theorem C90_fraction : forall fp s e sa A sb B u n d da db, mixed_text s e sa A sb B u db -> In 47 A ->
  fp (squash (unplus sa ++ A)) = Ok (n, d) ->
  load_fraction n d (Buf true (24 :: zeros 8)) = (Buf true da, oret tt) -> length da = 9%nat -> wf_bytes da ->
  mixed_result (complex_load fp s e) KRealFraction 27 da db.
Proof.
  intros fp s e sa A sb B u n d da db M IA F L La Wa. pose proof M as (_ & _ & _ & _ & _ & Ia & _ & N1 & N2 & _).
  apply (mixed fp s e sa A sb B u db [KReal; KUndefReal] KRealFraction 27 KComplexFraction [KRealRadical; KRealPi; KRealPiFraction]); auto; [now left| |right; now left|].
  - intros x X. apply (real_refuses fp x _ 47); [now left|now apply unplus_in| | |destruct X as [<-|[<-|[]]]; auto]; apply unplus_no; auto; lia.
  - unfold real_new. change (real_fresh KRealFraction) with (@oret buffer (Buf true (24 :: zeros 8))). rewrite obind_oret. cbn [part_load].
    unfold fraction_load. rewrite F, L. reflexivity.
Qed.
Print Assumptions C90_fraction.
Theorem C90_radical : forall fp s e sa A sb B u da db x, mixed_text s e sa A sb B u db -> In 8730 A ->
  fp (squash (unplus sa ++ A)) = Err x -> x = TypeError \/ x = ValueError ->
  radical_load (unplus sa ++ A) (Buf true (28 :: zeros 8)) = (Buf true da, oret tt) -> length da = 9%nat -> wf_bytes da ->
  mixed_result (complex_load fp s e) KRealRadical 29 da db.
Proof.
  intros fp s e sa A sb B u da db x M IA F CX L La Wa. pose proof M as (_ & _ & _ & _ & _ & Ia & _ & N1 & N2 & _).
  apply (mixed fp s e sa A sb B u db [KReal; KUndefReal; KRealFraction] KRealRadical 29 KComplexRadical [KRealPi; KRealPiFraction]); auto; [now left| |do 2 right; now left|].
  - intros c X. destruct X as [<-|[<-|[<-|[]]]]; [| |now apply (fraction_refuses fp _ x)];
      (apply (real_refuses fp _ _ 8730); [right; now right|now apply unplus_in| | |auto]; apply unplus_no; auto; lia).
  - unfold real_new. change (real_fresh KRealRadical) with (@oret buffer (Buf true (28 :: zeros 8))). rewrite obind_oret. cbn [part_load].
    rewrite L. reflexivity.
Qed.
Print Assumptions C90_radical.
Theorem C90_pi : forall fp s e sa A sb B u da db x, mixed_text s e sa A sb B u db -> In 960 A ->
  fp (squash (unplus sa ++ A)) = Err x -> x = TypeError \/ x = ValueError ->
  real_pi_load (unplus sa ++ A) (Buf true (32 :: zeros 8)) = (Buf true da, oret tt) -> length da = 9%nat -> wf_bytes da ->
  mixed_result (complex_load fp s e) KRealPi 30 da db.
Proof.
  intros fp s e sa A sb B u da db x M IA F CX L La Wa. pose proof M as (_ & _ & _ & _ & _ & Ia & _ & N1 & N2 & _).
  apply (mixed fp s e sa A sb B u db [KReal; KUndefReal; KRealFraction; KRealRadical] KRealPi 30 KComplexPi [KRealPiFraction]); auto; [now left| |do 3 right; now left|].
  - assert (I : In 960 (unplus sa ++ A)) by now apply unplus_in.
    intros c X. destruct X as [<-|[<-|[<-|[<-|[]]]]]; [| |now apply (fraction_refuses fp _ x)|];
      try (apply (real_refuses fp _ _ 960); [right; now left|exact I| | |auto]; apply unplus_no; auto; lia).
    exists [], ValueError. split; [|now right]. unfold real_new. change (real_fresh KRealRadical) with (@oret buffer (Buf true (28 :: zeros 8))).
    rewrite obind_oret. cbn [part_load]. rewrite radical_load_refused; [reflexivity|intros X; rewrite X in I; destruct I|now apply radical_parse_pi].
  - unfold real_new. change (real_fresh KRealPi) with (@oret buffer (Buf true (32 :: zeros 8))). rewrite obind_oret. cbn [part_load].
    rewrite L. reflexivity.
Qed.
Print Assumptions C90_pi.

(** A stand-in for [Fraction(text)] on texts a/b. *)
Definition fraction0 (s : str) : result (Z * Z) :=
  match split_on 47 s with
  | [a; b] => match parse_int 10 a, parse_int 10 b with
              | Ok n, Ok d => if d =? 0 then Err ZeroDivisionError else Ok (n / Z.gcd n d, d / Z.gcd n d)
              | _, _ => Err ValueError
              end
  | _ => Err ValueError
  end.
Definition cplx1 : entry := with_data cplx0 (Buf true [12; 0; 0; 0; 0; 0; 0; 0; 0; 12; 0; 0; 0; 0; 0; 0; 0; 0]).
Definition load0 (s : str) : out (cls * bytes) := do e := complex_load fraction0 s cplx1 in oret (e_cls e, calc_data e).
Example C90_example :
  load0 (s2l "-2/4 + 3i") = oret (KComplex, [155; 127; 80; 0; 0; 0; 0; 0; 0; 12; 128; 48; 0; 0; 0; 0; 0; 0]) /\
  load0 (s2l "2" ++ [8730] ++ s2l "3 - 3i") = oret (KComplex, [29; 0; 1; 0; 0; 2; 0; 16; 3; 140; 128; 48; 0; 0; 0; 0; 0; 0]) /\
  load0 (s2l "1.5" ++ [960] ++ s2l " + 3i") = oret (KComplex, [30; 128; 21; 0; 0; 0; 0; 0; 0; 12; 128; 48; 0; 0; 0; 0; 0; 0]) /\
  mixed_text (s2l "-2/4 + 3i") cplx1 (s2l "-") (s2l "2/4") (s2l "+") (s2l "3") (s2l "i") [0; 128; 48; 0; 0; 0; 0; 0; 0] /\
  fraction0 (s2l "-2/4") = Ok (-1, 2) /\ load_fraction (-1) 2 (Buf true (24 :: zeros 8)) = (Buf true [152; 127; 80; 0; 0; 0; 0; 0; 0], oret tt).
Proof.
  split; [vm_compute; reflexivity|]. split; [vm_compute; reflexivity|]. split; [vm_compute; reflexivity|]. split; [|split; vm_compute; reflexivity].
  assert (PL : forall s, s <> [] -> (forall c, In c s -> c = 47 \/ 48 <= c <= 57) -> plain s) by (intros s N H; split; [exact N|intros c I; apply H in I; split; intros J; vm_compute in J; lia]).
  split; [eexists _, _; split; [reflexivity|]; split; [unfold is_byte; lia|]; split; [reflexivity|]; split; [reflexivity|]; split; [repeat constructor; unfold is_byte; lia|]; split; reflexivity|].
  split; [reflexivity|]. split; [apply PL; [discriminate|intros c I; cbn in I; lia]|]. split; [apply PL; [discriminate|intros c I; cbn in I; lia]|].
  split; [now left|]. split; [cbn; auto|]. split; [cbn; auto|]. split; [cbn; lia|]. split; [cbn; lia|].
  split; [vm_compute; reflexivity|]. split; [reflexivity|]. repeat constructor; unfold is_byte; lia.
Qed.
(** The imaginary part is read in its present kind only: 1/2 is accepted as a
    real part and refused as an imaginary part. *)
Theorem C90_imaginary_refuted : (exists v, load0 (s2l "1/2 + 1i") = oret v) /\ snd (load0 (s2l "1 + 1/2i")) = Err ValueError /\
  snd (load0 (s2l "1/2 + 1/2i")) = Err ValueError.
Proof. split; [eexists; vm_compute; reflexivity|]. split; vm_compute; reflexivity. Qed.
Print Assumptions C90_imaginary_refuted.
(** In general. *)
Theorem C90_imaginary : forall fp s e t0 D sa A sb B u da w x,
  e_type e = [t0] -> is_byte t0 -> e_data e = Buf true D -> length D = 18%nat -> wf_bytes D ->
  nth 0 D 0 mod 64 = 12 -> forall c2 t2 k2, In (c2, t2, k2) part_kinds -> nth 9 D 0 mod 64 = t2 ->
  unspaced s = sa ++ A ++ sb ++ B ++ u -> plain A -> plain B -> is_unit u ->
  In sa [s2l ""; s2l "+"; s2l "-"] -> In sb [s2l "+"; s2l "-"] ->
  real_load (unplus sa ++ A) (Buf true (zeros 9)) = (Buf true da, oret tt) -> length da = 9%nat -> wf_bytes da ->
  real_new fp c2 (unplus sb ++ B) = (w, Err x) -> complex_load fp s e = (w, Err x).
Proof.
  intros fp s e t0 D sa A sb B u da w x ET B0 ED LD WD T1 c2 t2 k2 I2 T2 US PA PB U Ia Ib LA La Wa NB.
  pose proof (parts_ok s sa A sb B u US PA PB U Ia Ib) as P.
  unfold complex_load. rewrite P. unfold olift at 1. rewrite obind_ret_l.
  destruct (part_types e D KReal 12 KComplex ED LD (or_introl eq_refl)) as [[RT RS] _]; [exact T1|]. rewrite RT. unfold olift at 1. rewrite obind_ret_l.
  rewrite (real_new_real fp _ da LA), obind_oret, (set_real_ok e KReal 12 da D) by auto. unfold oret at 1. cbv beta iota. rewrite obind_ret_l.
  set (e1 := with_data e (Buf true (retag 12 da ++ skipn 9 D))).
  assert (LD1 : length (retag 12 da ++ skipn 9 D) = 18%nat) by (rewrite app_length, retag_length, skipn_length; lia).
  destruct (part_types e1 (retag 12 da ++ skipn 9 D) c2 t2 k2 eq_refl LD1 I2) as [_ IT].
  rewrite IT by (rewrite <- T2; list_n D LD 18%nat; list_n da La 9%nat; reflexivity).
  unfold olift at 1. rewrite obind_ret_l, NB. reflexivity.
Qed.
Print Assumptions C90_imaginary.
(** A division by zero is not a ValueError and stops the search. *)
Theorem C90_zero_refuted : load0 (s2l "1/0 + 2i") = oerr ZeroDivisionError.
Proof. vm_compute. reflexivity. Qed.
Print Assumptions C90_zero_refuted.
