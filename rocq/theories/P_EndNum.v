(** C157: numbers of all kinds and settings, after saving the file and opening it again. *)
From Verif Require Import L_Base M_Data M_Numeric M_Flags M_Models M_Class M_Var M_Real M_Complex M_Gdb
  S_Data L_Data L_Flags S_Var L_Models P_Models L_Var L_VarFile P_Var S_Real L_Real P_Real S_Complex L_Complex P_Complex S_Gdb L_Gdb P_Gdb L_Pil S_ClassOf L_ClassOf P_ClassOf P_End P_EndPic.

(** The classes that a type byte alone decides, whatever the data. *)
Definition plain_types : list (cls * Z) :=
  [(KReal, 0); (KUndefReal, 14); (KRealFraction, 24); (KRealRadical, 28); (KRealPi, 32); (KRealPiFraction, 33);
   (KMatrix, 2); (KEquation, 3); (KNewEquation, 11); (KString, 4); (KWindow, 15); (KRecallWindow, 16); (KTable, 17); (KGroup, 23); (KAppVar, 21)].
Definition complex_types : list (cls * Z) :=
  [(KComplex, 12); (KComplexFraction, 27); (KComplexRadical, 29); (KComplexPi, 30); (KComplexPiFraction, 31)].
Lemma plain_sound ps e t : In (e_cls e, t) plain_types -> e_type e = [t] -> sound ps e.
Proof.
  intros I T. split; exists t; (split; [exact T|]).
  - cbn in I. repeat (destruct I as [I|I]; [injection I as _ <-; split; [lia|]; split; intros J; cbn in J; lia|]). destruct I.
  - cbn in I. repeat (destruct I as [I|I]; [injection I as <- <-; reflexivity|]). destruct I.
Qed.
Lemma complex_sound ps e t b : In (e_cls e, t) complex_types -> e_type e = [t] -> nth_error (b_data (e_data e)) 9 = Some b -> b mod 64 = t -> sound ps e.
Proof.
  intros I T N M. split; exists t; (split; [exact T|]).
  - split; [cbn in I; intuition congruence|]. split; [intros J; cbn in I, J; exfalso; intuition congruence|]. intros _. exists b. now split.
  - cbn in I. repeat (destruct I as [I|I]; [injection I as <- <-; reflexivity|]). destruct I.
Qed.

Section File.
  Variable ns : cls -> str -> out bytes.
  Variable gv : entry -> option bytes -> out Z.
  Variable ps : bytes -> option bool.
  Variable order : model -> Z.
  Variable so : list model -> list model.
  Variable w0 : list warning.
  Variable e0 : entry.
  Hypothesis DF : entry_default ns gv ps = (w0, Ok e0).
  Hypothesis QD : no_structural w0.
  Notation reopened := (reopened ns gv ps order so).

Lemma one_reopens h pre e post : fits h (pre ++ e :: post) -> Forall (sound ps) pre -> Forall (sound ps) post -> sound ps e ->
  reopened h (pre ++ e :: post) (pre ++ e :: post).
Proof. intros FT G1 G2 S. apply (sound_reopens ns gv ps order so w0 e0 DF QD); [exact FT|]. now apply among_sound. Qed.
(** Entries of these classes come back as they are, with any data. *)
Theorem C157_plain : forall h pre e post t, Forall (sound ps) pre -> Forall (sound ps) post -> In (e_cls e, t) plain_types -> e_type e = [t] ->
  fits h (pre ++ e :: post) -> reopened h (pre ++ e :: post) (pre ++ e :: post).
Proof. intros h pre e post t G1 G2 I T FT. apply one_reopens; auto. now apply plain_sound with t. Qed.
(** Complex numbers come back as they are if the tag of the imaginary part is the type. *)
Theorem C157_complex_tag : forall h pre e post t b, Forall (sound ps) pre -> Forall (sound ps) post -> In (e_cls e, t) complex_types -> e_type e = [t] ->
  nth_error (b_data (e_data e)) 9 = Some b -> b mod 64 = t ->
  fits h (pre ++ e :: post) -> reopened h (pre ++ e :: post) (pre ++ e :: post).
Proof. intros h pre e post t b G1 G2 I T N M FT. apply one_reopens; auto. now apply complex_sound with t b. Qed.
(** So after both parts are assigned, in either order (C33), the file gives back a
    number of those parts, of whatever kinds they are. *)
Theorem C157_complex : forall h pre e post D t0 c1 t1 k1 d1 c2 t2 k2 d2, Forall (sound ps) pre -> Forall (sound ps) post ->
  In (c1, t1, k1) part_kinds -> In (c2, t2, k2) part_kinds -> e_data e = Buf true D -> length D = 18%nat -> wf_bytes D -> e_type e = [t0] -> is_byte t0 ->
  length d1 = 9%nat -> wf_bytes d1 -> length d2 = 9%nat -> wf_bytes d2 ->
  exists e' y, (do (e1, _) := set_real e (Real c1 (Buf true d1)) in set_imag e1 (Real c2 (Buf true d2))) = oret (e', y) /\
    (fits h (pre ++ e' :: post) -> reopened h (pre ++ e' :: post) (pre ++ e' :: post)) /\
    exists d1' d2', get_real e' = oret (Real c1 (Buf true d1')) /\ same_number d1 d1' /\ get_imag e' = oret (Real c2 (Buf true d2')) /\ same_number d2 d2'.
Proof.
  intros h pre e post D t0 c1 t1 k1 d1 c2 t2 k2 d2 G1 G2 I1 I2 ED LD WD ET B0 L1 W1 L2 W2.
  destruct (part_kind_sub _ _ _ I1) as (S1 & _ & K1 & T1). destruct (part_kind_sub _ _ _ I2) as (S2 & _ & K2 & T2).
  rewrite (set_real_ok e c1 t1 d1 D) by auto. rewrite obind_oret.
  rewrite (set_imag_ok _ t0 c2 t2 d2 (retag t1 d1 ++ skipn 9 D)); auto.
  2:{ rewrite app_length, retag_length, skipn_length. lia. }
  2:{ apply wf_bytes_app. split; [now apply retag_same|now apply wf_skipn]. }
  rewrite firstn_app_exact by (now rewrite retag_length). rewrite K2.
  do 2 eexists. split; [reflexivity|]. split.
  - intros FT. destruct d2 as [|b d2]; [discriminate L2|]. apply (C157_complex_tag h pre _ post t2 (t2 + 64 * (b / 64))); auto.
    + cbn [e_cls with_cls]. clear - I2. cbn in I2. repeat (destruct I2 as [K|I2]; [injection K as _ <- <-; cbn; tauto|]). destruct I2.
    + cbn [e_data b_data with_cls with_type with_data retag]. rewrite nth_error_app2 by (rewrite retag_length; lia). now rewrite retag_length, L1.
    + apply retag_byte; [|now inversion W2]. clear - I2. cbn in I2. repeat (destruct I2 as [K|I2]; [injection K as _ <- _; lia|]). destruct I2.
  - exists (retag t1 d1), (retag t2 d2). split; [eapply (get_real_ok _ c1 t1 k1); eauto; reflexivity|]. split; [now apply retag_same|].
    split; [|now apply retag_same]. eapply (get_imag_ok _ c2 t2 k2 d2 (retag t1 d1)); eauto; now rewrite retag_length.
Qed.
(** A complex number written as text. *)
Theorem C157_complex_text : forall h pre post fp s e t0 D la lb sa A sb B u na ka nb kb, Forall (sound ps) pre -> Forall (sound ps) post ->
  e_type e = [t0] -> is_byte t0 -> e_data e = Buf true D -> length D = 18%nat -> wf_bytes D ->
  nth 0 D 0 mod 64 = 12 -> nth 9 D 0 mod 64 = 12 ->
  unspaced s = sa ++ A ++ sb ++ B ++ u -> plain A -> plain B -> is_unit u ->
  In sa [s2l ""; s2l "+"; s2l "-"] -> In sb [s2l "+"; s2l "-"] ->
  lit_wf la -> lit_text la = unplus sa ++ A -> lit_wf lb -> lit_text lb = unplus sb ++ B ->
  lit_coef la = na * 10 ^ ka -> 0 <= ka -> 0 < na < 10 ^ 14 -> lit_coef lb = nb * 10 ^ kb -> 0 <= kb -> 0 < nb < 10 ^ 14 ->
  exists ma xa mb xb, sci_eq ma (xa - 141) (lit_coef la) (lit_scale la) /\ sci_eq mb (xb - 141) (lit_coef lb) (lit_scale lb) /\
    (is_byte xa -> is_byte xb -> exists e' da db, complex_load fp s e = oret e' /\
       (fits h (pre ++ e' :: post) -> reopened h (pre ++ e' :: post) (pre ++ e' :: post)) /\
       get_real e' = oret (Real KReal (Buf true da)) /\ real_decimal (Buf true da) = Ok (Dec (lit_neg la) ma (xa - 141)) /\
       get_imag e' = oret (Real KReal (Buf true db)) /\ real_decimal (Buf true db) = Ok (Dec (lit_neg lb) mb (xb - 141))).
Proof.
  intros h pre post fp s e t0 D la lb sa A sb B u na ka nb kb G1 G2 ET B0 ED LD WD T1 T2 US PA PB U Ia Ib Wa Ta Wb Tb Ca Ka Na Cb Kb Nb.
  destruct (C75_text fp s e t0 D la lb sa A sb B u na ka nb kb) as (ma & xa & mb & xb & Q1 & Q2 & R); auto.
  exists ma, xa, mb, xb. split; [exact Q1|]. split; [exact Q2|]. intros X1 X2.
  destruct (R X1 X2) as (e' & da & db & E & C & T & R1 & R2 & R3 & R4 & L & _ & N). exists e', da, db. split; [exact E|]. split; [|tauto].
  intros FT. apply (C157_complex_tag h pre e' post 12 (nth 9 (calc_data e') 0)); auto.
  - rewrite C. now left.
  - unfold calc_data in *. apply nth_error_nth'. lia.
Qed.
(** A parameter of the window, recalled window or table settings. *)
Theorem C157_setting : forall h pre e post t D name v x, Forall (sound ps) pre -> Forall (sound ps) post ->
  In (e_cls e, t) [(KWindow, 15); (KRecallWindow, 16); (KTable, 17)] -> e_type e = [t] -> e_data e = Buf true D -> size_ok (e_cls e) (zlen D) ->
  In (name, v) (fields (e_cls e)) -> v_stop v = option_map (fun a => a + 9) (v_start v) -> length x = 9%nat ->
  exists e', set_field e v x = ([], Ok e') /\ get_field e' v = x /\ (fits h (pre ++ e' :: post) -> reopened h (pre ++ e' :: post) (pre ++ e' :: post)).
Proof.
  intros h pre e post t D name v x G1 G2 I T ED S F ST L. destruct (C61_read_back e D name v x ED S F ST L) as (e' & E & G).
  exists e'. split; [exact E|]. split; [exact G|]. intros FT.
  unfold set_field in E. apply obind_ok in E as (? & b & ? & _ & E & _). injection E as _ <-.
  apply (C157_plain h pre _ post t); auto. cbn [e_cls with_data]. clear - I. cbn in I |- *. tauto.
Qed.
End File.
Print Assumptions C157_plain.
Print Assumptions C157_complex_tag.
Print Assumptions C157_complex.
Print Assumptions C157_complex_text.
Print Assumptions C157_setting.
(** A complex number with a fraction as imaginary part, and table settings. *)
Definition table_x : entry := Entry KTable [13; 0] [17] (zeros 8) [0] [0] (Buf true ([18; 0] ++ repeat 1 9 ++ repeat 2 9)).
Example C157_example : exists z y t',
  (do (e1, _) := set_real cplx0 (Real KReal (Buf true [0; 128; 16; 0; 0; 0; 0; 0; 0])) in set_imag e1 (Real KRealFraction (Buf true [24; 127; 80; 0; 0; 0; 0; 0; 0]))) = oret (z, y) /\
  e_cls z = KComplexFraction /\ calc_data z = [12; 128; 16; 0; 0; 0; 0; 0; 0; 27; 127; 80; 0; 0; 0; 0; 0; 0] /\
  set_field table_x (View (Some 2) (Some 11)) [0; 128; 16; 0; 0; 0; 0; 0; 0] = ([], Ok t') /\ Forall (sound ps0) [z; t'] /\
  reopened ns0 gv0 ps0 model_index so0 some_header [z; t'] [z; t'].
Proof.
  do 3 eexists. split; [vm_compute; reflexivity|]. split; [reflexivity|]. split; [reflexivity|]. split; [vm_compute; reflexivity|]. split.
  - repeat apply Forall_cons; [..|apply Forall_nil].
    + apply (complex_sound _ _ 27 27); [right; now left|reflexivity..].
    + apply (plain_sound _ _ 17); [cbn; tauto|reflexivity].
  - do 2 eexists; (split; [vm_compute; reflexivity|]); (split; [vm_compute; reflexivity|]); intros x I; cbn in I; intuition (subst; reflexivity).
Qed.
(** A complex number whose type byte is not the tag of its imaginary part comes
    back with another type byte and class, and with a warning that the checksum is wrong. *)
Theorem C157_tag_refuted : exists e b w x, e_cls e = KComplex /\ e_type e = [12] /\ length (calc_data e) = 18%nat /\
  var_bytes (Var some_header [e] None) = Ok b /\ var_load ns0 gv0 ps0 model_index so0 (Var h0 [] None) b = (w, Ok (Var some_header [x] None)) /\
  In WChecksum w /\ e_cls x = KComplexFraction /\ e_type x = [27] /\ e_data x = e_data e.
Proof.
  exists (with_data cplx0 (Buf true [12; 128; 16; 0; 0; 0; 0; 0; 0; 27; 127; 80; 0; 0; 0; 0; 0; 0])). do 3 eexists.
  split; [reflexivity|]. split; [reflexivity|]. split; [reflexivity|]. split; [vm_compute; reflexivity|]. split; [vm_compute; reflexivity|].
  split; [cbn; tauto|]. split; [reflexivity|]. split; reflexivity.
Qed.
Print Assumptions C157_tag_refuted.
