(** Complex numbers: C33, C34, C35, C75, C76, C77. *)
From Verif Require Import PyBase M_Data M_Numeric M_Flags M_Models M_Class M_Var M_Real M_Complex L_Base S_Data L_Data L_Var S_Real L_Real L_Radical P_Real S_Complex L_Complex.

(** C33: the two parts are independent, and each reads back as assigned. *)
Theorem C33_assign_real : forall e D c t k d, In (c, t, k) part_kinds -> e_data e = Buf true D -> length D = 18%nat -> wf_bytes D ->
  length d = 9%nat -> wf_bytes d ->
  exists e' x' d', set_real e (Real c (Buf true d)) = oret (e', x') /\
    get_real e' = oret (Real c (Buf true d')) /\ same_number d d' /\ nth 0 d' 0 mod 64 = t /\
    b_data (e_data e') = d' ++ skipn 9 D /\ e_cls e' = e_cls e /\ e_type e' = e_type e /\ e_name e' = e_name e.
Proof.
  intros e D c t k d I ED LD WD L W. destruct (part_kind_sub c t k I) as (S & _ & _ & T).
  rewrite (set_real_ok e c t d D) by auto. eexists _, _, _. split; [reflexivity|].
  split; [apply (get_real_ok _ c t k d (skipn 9 D)); auto|]. split; [apply retag_same; auto|].
  split; [|repeat split]. destruct d as [|b d]; [discriminate L|]. cbn [retag nth]. apply retag_byte; auto. now inversion W.
Qed.
Print Assumptions C33_assign_real.
Theorem C33_assign_imag : forall e D t0 c t k d, In (c, t, k) part_kinds -> e_data e = Buf true D -> length D = 18%nat -> wf_bytes D ->
  e_type e = [t0] -> is_byte t0 -> length d = 9%nat -> wf_bytes d ->
  exists e' x' d', set_imag e (Real c (Buf true d)) = oret (e', x') /\
    get_imag e' = oret (Real c (Buf true d')) /\ same_number d d' /\ nth 0 d' 0 mod 64 = t /\
    b_data (e_data e') = firstn 9 D ++ d' /\ e_cls e' = k /\ e_type e' = [t] /\ e_name e' = e_name e.
Proof.
  intros e D t0 c t k d I ED LD WD ET B0 L W. destruct (part_kind_sub c t k I) as (S & _ & K & T).
  rewrite (set_imag_ok e t0 c t d D) by auto. eexists _, _, _. split; [reflexivity|].
  split; [apply (get_imag_ok _ c t k d (firstn 9 D)); auto; now rewrite firstn_length_le by lia|]. split; [apply retag_same; auto|].
  split; [|rewrite K; repeat split]. destruct d as [|b d]; [discriminate L|]. cbn [retag nth]. apply retag_byte; auto. now inversion W.
Qed.
Print Assumptions C33_assign_imag.
(** Assigning both parts in either order gives the same bytes and class. *)
Theorem C33_order : forall e D t0 c1 t1 k1 d1 c2 t2 k2 d2, In (c1, t1, k1) part_kinds -> In (c2, t2, k2) part_kinds ->
  e_data e = Buf true D -> length D = 18%nat -> wf_bytes D -> e_type e = [t0] -> is_byte t0 ->
  length d1 = 9%nat -> wf_bytes d1 -> length d2 = 9%nat -> wf_bytes d2 ->
  exists e' x y, (do (e1, _) := set_real e (Real c1 (Buf true d1)) in set_imag e1 (Real c2 (Buf true d2))) = oret (e', y) /\
    (do (e1, _) := set_imag e (Real c2 (Buf true d2)) in set_real e1 (Real c1 (Buf true d1))) = oret (e', x).
Proof.
  intros e D t0 c1 t1 k1 d1 c2 t2 k2 d2 I1 I2 ED LD WD ET B0 L1 W1 L2 W2.
  destruct (part_kind_sub _ _ _ I1) as (S1 & _ & K1 & T1). destruct (part_kind_sub _ _ _ I2) as (S2 & _ & K2 & T2).
  rewrite (set_real_ok e c1 t1 d1 D) by auto. rewrite (set_imag_ok e t0 c2 t2 d2 D) by auto. rewrite !obind_oret.
  rewrite (set_imag_ok _ t0 c2 t2 d2 (retag t1 d1 ++ skipn 9 D)); auto.
  2:{ rewrite app_length, retag_length, skipn_length. lia. }
  2:{ apply wf_bytes_app. split; [now apply retag_same|now apply wf_skipn]. }
  rewrite (set_real_ok _ c1 t1 d1 (firstn 9 D ++ retag t2 d2)); auto.
  2:{ rewrite app_length, retag_length, firstn_length_le; lia. }
  2:{ apply wf_bytes_app. split; [now apply wf_firstn|now apply retag_same]. }
  rewrite firstn_app_exact by (now rewrite retag_length). rewrite skipn_app_exact by (rewrite firstn_length_le; lia).
  eexists _, _, _. split; reflexivity.
Qed.
Print Assumptions C33_order.
Definition cplx0 : entry := Entry KComplex [13; 0] [12] [65; 0; 0; 0; 0; 0; 0; 0] [0] [0]
  (Buf true [12; 128; 16; 0; 0; 0; 0; 0; 0; 140; 129; 37; 0; 0; 0; 0; 0; 0]).
Example C33_example : In (KRealFraction, 27, KComplexFraction) part_kinds /\
  (do (e, _) := set_imag cplx0 (Real KRealFraction (Buf true [24; 127; 80; 0; 0; 0; 0; 0; 0])) in oret (e_cls e, calc_data e)) =
  oret (KComplexFraction, [12; 128; 16; 0; 0; 0; 0; 0; 0; 27; 127; 80; 0; 0; 0; 0; 0; 0]).
Proof. split; [right; left; reflexivity|]. vm_compute. reflexivity. Qed.

(** C34: assigning a number as a part changes that number's own kind tag. *)
Theorem C34_operand_refuted : exists e x e' x', set_real e x = oret (e', x') /\ x' <> x /\
  get_subtype (r_buf x) = Ok 0 /\ get_subtype (r_buf x') = Ok 12.
Proof.
  exists cplx0, (Real KReal (Buf true [0; 128; 16; 0; 0; 0; 0; 0; 0])). eexists _, _. split; [vm_compute; reflexivity|].
  split; [discriminate|]. split; vm_compute; reflexivity.
Qed.
Print Assumptions C34_operand_refuted.
(** The number itself (sign, exponent, digits) is left alone. *)
Theorem C34_operand_value : forall e D c t k d e' x', In (c, t, k) part_kinds -> e_data e = Buf true D -> length D = 18%nat -> wf_bytes D ->
  length d = 9%nat -> wf_bytes d -> set_real e (Real c (Buf true d)) = oret (e', x') ->
  r_cls x' = c /\ exists d', r_buf x' = Buf true d' /\ same_number d d' /\ real_decimal (Buf true d') = real_decimal (Buf true d).
Proof.
  intros e D c t k d e' x' I ED LD WD L W E. destruct (part_kind_sub c t k I) as (S & _ & _ & T).
  rewrite (set_real_ok e c t d D) in E by auto. injection E as _ <-. split; [reflexivity|].
  exists (retag t d). split; [reflexivity|]. split; [apply retag_same; auto|]. now apply retag_decimal.
Qed.
Print Assumptions C34_operand_value.
Example C34_example : exists e' x', In (KRealFraction, 27, KComplexFraction) part_kinds /\
  set_real cplx0 (Real KRealFraction (Buf true [152; 127; 80; 0; 0; 0; 0; 0; 0])) = oret (e', x') /\
  r_buf x' = Buf true [155; 127; 80; 0; 0; 0; 0; 0; 0] /\
  real_decimal (Buf true [155; 127; 80; 0; 0; 0; 0; 0; 0]) = real_decimal (Buf true [152; 127; 80; 0; 0; 0; 0; 0; 0]) /\
  real_decimal (Buf true [155; 127; 80; 0; 0; 0; 0; 0; 0]) = Ok (Dec true 50000000000000 (-14)).
Proof. eexists _, _. split; [right; left; reflexivity|]. repeat split; vm_compute; reflexivity. Qed.

(** C35: the version byte looks at the sign of the parts: 1+i and -1+i get
    different versions. *)
Theorem C35_sign_refuted : exists e e', complex_version e None = Ok 0 /\ complex_version e' None = Ok 16 /\
  calc_data e' = map (fun p => if Nat.eqb (fst p) 0 then snd p + 128 else snd p) (combine (seq 0 18) (calc_data e)) /\ e_cls e = e_cls e'.
Proof.
  exists (with_data cplx0 (Buf true [12; 128; 16; 0; 0; 0; 0; 0; 0; 12; 128; 16; 0; 0; 0; 0; 0; 0])),
    (with_data cplx0 (Buf true [140; 128; 16; 0; 0; 0; 0; 0; 0; 12; 128; 16; 0; 0; 0; 0; 0; 0])).
  repeat split; vm_compute; reflexivity.
Qed.
Print Assumptions C35_sign_refuted.
(** In general: the two bytes are compared whole, so the version of a plain or fraction
    kind is given only when the larger byte is exactly that kind's tag. *)
Theorem C35_version : forall e D, issubclass (e_cls e) KComplexEntry = true -> e_data e = Buf true D -> length D = 18%nat ->
  forall a b, nth 0 D 0 = a -> nth 9 D 0 = b ->
  complex_version e None = Ok (if (Z.max a b =? 12) then 0 else if (Z.max a b =? 27) then 11 else 16).
Proof.
  intros e D K ED LD a b A B. unfold complex_version.
  assert (DV : data e = D).
  { unfold data. assert (V : data_view (e_cls e) = (View None None, DData)) by (destruct (e_cls e); try discriminate K; reflexivity).
    rewrite V, ED. unfold view_get. cbn. apply py_slice_all. }
  rewrite DV. do 18 (destruct D as [|? D]; [discriminate LD|]). cbn in A, B. subst a b. reflexivity.
Qed.
Print Assumptions C35_version.
(** The same for a payload passed as argument; an empty one counts as absent. *)
Theorem C35_version_of : forall e d, length d = 18%nat ->
  complex_version e (Some d) =
    Ok (let m := Z.max (nth 0 d 0) (nth 9 d 0) in if m =? 12 then 0 else if m =? 27 then 11 else 16).
Proof. intros e d L. do 18 (destruct d as [|? d]; [discriminate L|]). reflexivity. Qed.
Print Assumptions C35_version_of.
Theorem C35_version_of_empty : forall e, complex_version e (Some []) = complex_version e None.
Proof. reflexivity. Qed.
Print Assumptions C35_version_of_empty.
Example C35_example : complex_version cplx0 None = Ok 16 /\ issubclass (e_cls cplx0) KComplexEntry = true.
Proof. split; reflexivity. Qed.

(** C75: text "a+bi" loads both literals exactly.  The exponents may carry the
    calculator's minus sign, but neither "+" nor "-". *)
Theorem C75_text : forall fp s e t0 D la lb sa A sb B u na ka nb kb,
  e_type e = [t0] -> is_byte t0 -> e_data e = Buf true D -> length D = 18%nat -> wf_bytes D ->
  nth 0 D 0 mod 64 = 12 -> nth 9 D 0 mod 64 = 12 ->
  unspaced s = sa ++ A ++ sb ++ B ++ u -> plain A -> plain B -> is_unit u ->
  In sa [s2l ""; s2l "+"; s2l "-"] -> In sb [s2l "+"; s2l "-"] ->
  lit_wf la -> lit_text la = unplus sa ++ A -> lit_wf lb -> lit_text lb = unplus sb ++ B ->
  lit_coef la = na * 10 ^ ka -> 0 <= ka -> 0 < na < 10 ^ 14 -> lit_coef lb = nb * 10 ^ kb -> 0 <= kb -> 0 < nb < 10 ^ 14 ->
  exists ma xa mb xb, sci_eq ma (xa - 141) (lit_coef la) (lit_scale la) /\ sci_eq mb (xb - 141) (lit_coef lb) (lit_scale lb) /\
    (is_byte xa -> is_byte xb -> exists e' da db, complex_load fp s e = oret e' /\ e_cls e' = KComplex /\ e_type e' = [12] /\
       get_real e' = oret (Real KReal (Buf true da)) /\ real_decimal (Buf true da) = Ok (Dec (lit_neg la) ma (xa - 141)) /\
       get_imag e' = oret (Real KReal (Buf true db)) /\ real_decimal (Buf true db) = Ok (Dec (lit_neg lb) mb (xb - 141)) /\
       length (calc_data e') = 18%nat /\ nth 0 (calc_data e') 0 mod 64 = 12 /\ nth 9 (calc_data e') 0 mod 64 = 12).
Proof.
  intros fp s e t0 D la lb sa A sb B u na ka nb kb ET B0 ED LD WD T1 T2 US PA PB U Ia Ib Wa Ta Wb Tb Ca Ka Na Cb Kb Nb.
  pose proof (parts_ok s sa A sb B u US PA PB U Ia Ib) as P.
  assert (Z9 : wf_bytes (zeros 9)) by apply wf_zeros.
  assert (SP : forall l x y, lit_text l = x ++ y -> plain y -> (x = [] \/ x = s2l "-") -> unspaced (lit_text l) = lit_text l).
  { intros l x y E [_ H] X. rewrite E. unfold unspaced, without.
    assert (G : forall z, (forall c, In c z -> ~ In c spaces) -> filter (fun c => negb (existsb (Z.eqb c) spaces)) z = z).
    { induction z as [|c z IH]; intros G; [reflexivity|]. cbn [filter]. replace (existsb (Z.eqb c) spaces) with false.
      - cbn [negb]. f_equal. apply IH. intros; apply G; now right.
      - symmetry. apply (memb_false c spaces). apply G. now left. }
    apply G. intros c J. apply in_app_or in J as [J|J]; [|now apply H].
    destruct X as [->| ->]; [destruct J|]. destruct J as [<-|[]]. vm_compute. intuition lia. }
  assert (Xa : unplus sa = [] \/ unplus sa = s2l "-") by (destruct Ia as [<-|[<-|[<-|[]]]]; cbn; auto).
  assert (Xb : unplus sb = [] \/ unplus sb = s2l "-") by (destruct Ib as [<-|[<-|[]]]; cbn; auto).
  destruct (C25_exact la (lit_text la) (zeros 9) na ka) as (ma & xa & Ea & Ma & Ra & _); auto; [eapply SP; eauto|].
  destruct (C25_exact lb (lit_text lb) (zeros 9) nb kb) as (mb & xb & Eb & Mb & Rb & _); auto; [eapply SP; eauto|].
  exists ma, xa, mb, xb. split; [exact Ea|]. split; [exact Eb|]. intros Ha Hb.
  destruct (Ra Ha) as (da & Fa & Ga & Da). destruct (Rb Hb) as (db & Fb & Gb & Db).
  assert (WP : forall n x m d, payload 0 n x m d -> is_byte x -> 0 <= m < 10 ^ 14 -> length d = 9%nat /\ wf_bytes d).
  { intros n x m d Q X M. apply payload_stored in Q; [|lia|lia]. subst d. unfold stored. cbn [b_data]. split.
    - cbn [length]. now rewrite mant7.
    - constructor; [unfold is_byte; destruct n; cbn; lia|]. constructor; [exact X|]. unfold mant. apply wf_rev, bcd_le_wf. }
  destruct (WP _ _ _ _ Ga Ha ltac:(lia)) as [La Va]. destruct (WP _ _ _ _ Gb Hb ltac:(lia)) as [Lb Vb].
  rewrite Ta in Fa. rewrite Tb in Fb.
  pose proof (complex_load_ok fp s e t0 D _ _ da db P ET B0 ED LD WD T1 T2 Fa La Va Fb Lb Vb) as R.
  eexists _, (retag 12 da), (retag 12 db). split; [exact R|]. split; [reflexivity|]. split; [reflexivity|].
  split; [eapply (get_real_ok _ KReal 12 KComplex); auto; [now left|reflexivity]|].
  split; [rewrite retag_decimal by (auto; lia); exact Da|].
  split; [eapply (get_imag_ok _ KReal 12 KComplex db (retag 12 da)); auto; [now left|now rewrite retag_length]|].
  split; [rewrite retag_decimal by (auto; lia); exact Db|].
  unfold calc_data. cbn [e_data b_data with_cls with_type with_data]. list_n da La 9%nat. list_n db Lb 9%nat. cbn [retag app length nth]. split; [reflexivity|].
  unfold wf_bytes in Va, Vb. inversion Va; subst. inversion Vb; subst. split; apply retag_byte; auto; lia.
Qed.
Print Assumptions C75_text.
Definition cplx_of (s : str) : out bytes :=
  do e := complex_load (fun _ => Err ValueError) s (with_data cplx0 (Buf true [12; 0; 0; 0; 0; 0; 0; 0; 0; 12; 0; 0; 0; 0; 0; 0; 0; 0])) in
  oret (calc_data e).
Example C75_example : cplx_of (s2l "-1.5 + 12[i]") = oret [140; 128; 21; 0; 0; 0; 0; 0; 0; 12; 129; 18; 0; 0; 0; 0; 0; 0] /\
  plain (s2l "1.5") /\ plain (s2l "12").
Proof.
  split; [vm_compute; reflexivity|].
  split; (split; [discriminate|]); intros c H; cbn in H; split; intros K; vm_compute in K; lia.
Qed.
(** A unit without digits behind a minus sign loads as minus zero. *)
Theorem C75_minus_unit_refuted : cplx_of (s2l "2-i") = oret [12; 128; 32; 0; 0; 0; 0; 0; 0; 140; 128; 0; 0; 0; 0; 0; 0; 0] /\
  real_decimal (Buf true [140; 128; 0; 0; 0; 0; 0; 0; 0]) = Ok (Dec false 0 (-13)) /\
  cplx_of (s2l "2+i") = oret [12; 128; 32; 0; 0; 0; 0; 0; 0; 12; 128; 16; 0; 0; 0; 0; 0; 0].
Proof. repeat split; vm_compute; reflexivity. Qed.
Print Assumptions C75_minus_unit_refuted.

(** C76: a negative exponent splits the text in the wrong place: 1e-5+2i loads
    as 1-5i without complaint. *)
Theorem C76_exponent_refuted : cplx_of (s2l "1e-5+2i") = cplx_of (s2l "1-5i") /\ snd (cplx_of (s2l "1-5i")) = Ok [12; 128; 16; 0; 0; 0; 0; 0; 0; 140; 128; 80; 0; 0; 0; 0; 0; 0].
Proof. split; vm_compute; reflexivity. Qed.
Print Assumptions C76_exponent_refuted.
(** In general: a third summand, and whatever follows it, is ignored. *)
Theorem C76_trailing_ignored : forall fp s s' e sa A sb B u sc R,
  unspaced s = sa ++ A ++ sb ++ B ++ u ++ sc ++ R -> unspaced s' = sa ++ A ++ sb ++ B ++ u ->
  plain A -> plain B \/ B = [] -> is_unit u ->
  In sa [s2l ""; s2l "+"; s2l "-"] -> In sb [s2l "+"; s2l "-"] -> In sc [s2l "+"; s2l "-"] ->
  complex_load fp s e = complex_load fp s' e.
Proof.
  intros fp s s' e sa A sb B u sc R E E' PA PB U Ia Ib Ic.
  assert (NB : forall c, In c (s2l "+-*[ij") -> ~ In c B) by (destruct PB as [PB| ->]; [intros; now apply plain_no|intros c _ []]).
  unfold complex_load. rewrite (parts_tail s sa A sb B u sc R), (parts_gen s' sa A sb B u); auto.
Qed.
Print Assumptions C76_trailing_ignored.
(** In general: digits behind a signed exponent mark become the imaginary part,
    and the rest of the text (if any) is ignored: [A e -E ...] loads as
    [A - E i]. *)
Theorem C76_exponent : forall fp s s' e D da sa A sb E rest,
  e_data e = Buf true D -> length D = 18%nat -> wf_bytes D -> nth 0 D 0 mod 64 = 12 ->
  unspaced s = sa ++ A ++ s2l "e" ++ sb ++ E ++ rest -> unspaced s' = sa ++ A ++ sb ++ E ++ s2l "i" ->
  rest = [] \/ (exists R, rest = s2l "+" ++ R \/ rest = s2l "-" ++ R) ->
  A <> [] -> (forall c, In c A -> c = 46 \/ 48 <= c <= 57) -> E <> [] -> (forall c, In c E -> 48 <= c <= 57) ->
  In sa [s2l ""; s2l "+"; s2l "-"] -> In sb [s2l "+"; s2l "-"] ->
  real_load (unplus sa ++ A) (Buf true (zeros 9)) = (Buf true da, oret tt) -> length da = 9%nat -> wf_bytes da ->
  complex_load fp s e = complex_load fp s' e.
Proof.
  intros fp s s' e D da sa A sb E rest ED LD WD T1 US US' HR NA CA NE CE Ia Ib LA La Wa.
  assert (PA : plain A) by (split; [exact NA|intros c I; apply CA in I; split; intros J; vm_compute in J; lia]).
  assert (PAe : plain (A ++ s2l "e")).
  { split; [destruct A; discriminate|]. intros c I. apply in_app_or in I as [I|[I|[]]]; [now apply PA|]. rewrite <- I. split; intros J; vm_compute in J; lia. }
  assert (PE : plain E) by (split; [exact NE|intros c I; apply CE in I; split; intros J; vm_compute in J; lia]).
  assert (NB : forall c, In c (s2l "+-*[ij") -> ~ In c E) by (intros; now apply plain_no).
  assert (Q : unplus sb ++ E <> []) by (intros X; apply app_eq_nil in X as [_ X]; contradiction).
  assert (P : complex_parts s = Ok ((unplus sa ++ A) ++ s2l "e", unplus sb ++ E)).
  { assert (G : forall x R sc, In sc [s2l "+"; s2l "-"] -> unspaced x = sa ++ A ++ s2l "e" ++ sb ++ E ++ sc ++ R ->
       complex_parts x = Ok ((unplus sa ++ A) ++ s2l "e", unplus sb ++ E)).
    { intros x R sc Ic X. rewrite (parts_tail x sa (A ++ s2l "e") sb E [] sc R); auto.
      - rewrite app_assoc. destruct (unplus sb ++ E); [contradiction|reflexivity].
      - rewrite X, <- app_assoc. reflexivity. }
    destruct HR as [->|(R & [->| ->])].
    - rewrite <- parts_plus. apply (G _ [] (s2l "+")); [now left|]. unfold unspaced, without in *. rewrite filter_app, US, app_nil_r. now rewrite <- ?app_assoc.
    - apply (G s R (s2l "+")); [now left|exact US].
    - apply (G s R (s2l "-")); [right; now left|exact US]. }
  assert (P' : complex_parts s' = Ok (unplus sa ++ A, unplus sb ++ E)) by (apply (parts_ok s' sa A sb E (s2l "i")); auto; now left).
  unfold complex_load. rewrite P, P'. unfold olift at 1 5. rewrite !obind_ret_l.
  assert (RT : real_type e = Ok KReal).
  { unfold real_type, real_subtype. rewrite ED. change 0 with (Z.of_nat 0) at 1.
    rewrite (get_bits_at_nth 0 (Buf true D) (nth 0 D 0)); [|do 18 (destruct D as [|? D]; [discriminate LD|]); reflexivity]. rewrite T1. reflexivity. }
  rewrite RT. unfold olift at 1 4. rewrite !obind_ret_l.
  assert (RN : real_new fp KReal ((unplus sa ++ A) ++ s2l "e") = real_new fp KReal (unplus sa ++ A)).
  { unfold real_new. change (real_fresh KReal) with (@oret buffer (Buf true (zeros 9))). rewrite !obind_oret. cbn [part_load].
    unfold real_load. rewrite bare_exponent; [reflexivity|]. intros c I. apply in_app_or in I as [I|I]; [|right; now apply CA].
    left. destruct Ia as [<-|[<-|[<-|[]]]]; vm_compute in I; [contradiction|contradiction|]. destruct I as [<-|[]]. reflexivity. }
  rewrite RN, (real_new_real fp _ da LA), !obind_oret, (set_real_ok e KReal 12 da D) by auto.
  generalize (with_data e (Buf true (retag 12 da ++ skipn 9 D))), (Real KReal (Buf true (retag 12 da))). intros e1 x. unfold oret. cbv beta iota. reflexivity.
Qed.
Print Assumptions C76_exponent.
Example C76_example : cplx_of (s2l "1.5e-3") = cplx_of (s2l "1.5 - 3i") /\ cplx_of (s2l "2 + 3i - 4 + 5i") = cplx_of (s2l "2 + 3i") /\
  cplx_of (s2l "2 + 3i") = oret [12; 128; 32; 0; 0; 0; 0; 0; 0; 12; 128; 48; 0; 0; 0; 0; 0; 0] /\
  unspaced (s2l "1.5e-3") = s2l "" ++ s2l "1.5" ++ s2l "e" ++ s2l "-" ++ s2l "3" ++ [] /\
  real_load (unplus [] ++ s2l "1.5") (Buf true (zeros 9)) = (Buf true [0; 128; 21; 0; 0; 0; 0; 0; 0], oret tt).
Proof. split; [vm_compute; reflexivity|]. split; [vm_compute; reflexivity|]. split; [vm_compute; reflexivity|]. split; vm_compute; reflexivity. Qed.

(** C77: the text printed for a complex number of two decimals loads, and gives the
    same two numbers exactly when neither has digits beyond the fourteenth
    decimal place and the number is not "something nonzero minus i". *)
Theorem C77_string_roundtrip_iff : forall fp e t0 D la na xa ma da lb nb xb mb db,
  e_type e = [t0] -> is_byte t0 -> e_data e = Buf true D -> length D = 18%nat -> wf_bytes D ->
  nth 0 D 0 mod 64 = 12 -> nth 9 D 0 mod 64 = 12 ->
  stored_real la na xa ma da -> stored_real lb nb xb mb db ->
  exists s e' da' db', complex_string (Buf true da) (Buf true db) = Ok s /\
    complex_load fp s e = oret e' /\ e_cls e' = KComplex /\ e_data e' = Buf true (da' ++ db') /\
    length da' = 9%nat /\ length db' = 9%nat /\
    (payload 12 na xa ma da' /\ payload 12 nb xb mb db' <->
     short xa ma /\ short xb mb /\ ~ (ma <> 0 /\ nb = true /\ xb = 128 /\ mb = 10 ^ 13)).
Proof. exact complex_text_roundtrip. Qed.
Print Assumptions C77_string_roundtrip_iff.
Example C77_example : stored_real 12 false 128 30000000000000 [12; 128; 48; 0; 0; 0; 0; 0; 0] /\
  stored_real 12 true 127 25000000000000 [140; 127; 37; 0; 0; 0; 0; 0; 0] /\
  complex_string (Buf true [12; 128; 48; 0; 0; 0; 0; 0; 0]) (Buf true [140; 127; 37; 0; 0; 0; 0; 0; 0]) = Ok (s2l "3 - 0.25i") /\
  cplx_of (s2l "3 - 0.25i") = oret ([12; 128; 48; 0; 0; 0; 0; 0; 0] ++ [140; 127; 37; 0; 0; 0; 0; 0; 0]).
Proof.
  assert (H : forall x m d n, is_byte x -> 10 ^ 13 <= m < 10 ^ 14 -> d = b_data (stored 12 n x m) -> stored_real 12 n x m d).
  { intros x m d n X M ->. split; [lia|]. split; [change 12 with (12 mod 128) at 1; apply stored_payload; lia|]. split; [exact X|now left]. }
  split; [apply H; [unfold is_byte; lia|lia|reflexivity]|]. split; [apply H; [unfold is_byte; lia|lia|reflexivity]|].
  split; vm_compute; reflexivity.
Qed.
(** The text printed for 3-i does not read back. *)
Theorem C77_string_roundtrip_refuted : exists re im s d, complex_string (Buf true re) (Buf true im) = Ok s /\
  cplx_of s = oret d /\ d <> re ++ im /\ length re = 9%nat /\ length im = 9%nat /\ s = s2l "3 - i".
Proof.
  exists [12; 128; 48; 0; 0; 0; 0; 0; 0], [140; 128; 16; 0; 0; 0; 0; 0; 0], (s2l "3 - i"),
    [12; 128; 48; 0; 0; 0; 0; 0; 0; 140; 128; 0; 0; 0; 0; 0; 0; 0].
  split; [vm_compute; reflexivity|]. split; [vm_compute; reflexivity|]. split; [discriminate|]. repeat split.
Qed.
Print Assumptions C77_string_roundtrip_refuted.
