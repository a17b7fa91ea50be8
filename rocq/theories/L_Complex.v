(** Lemmas for P_Complex.v. *)
From Verif Require Import PyBase M_Data M_Numeric M_Flags M_Models M_Class M_Var M_Real M_Complex L_Base S_Data L_Data L_Var S_Real L_Real L_Radical S_Complex.

Lemma bits06_check : forallb (fun c => forallb (fun t => match bits_set 0 6 t (Some [c]) with
    | ([], Ok d) => leqb d [t + 64 * (c / 64)] | _ => false end) (map Z.of_nat (seq 0 64))) (map Z.of_nat (seq 0 256)) = true.
Proof. vm_compute. reflexivity. Qed.
Lemma bits06_ok t c : 0 <= t < 64 -> is_byte c -> bits_set 0 6 t (Some [c]) = ([], Ok [t + 64 * (c / 64)]).
Proof.
  intros H C. pose proof bits06_check as K. rewrite forallb_forall in K. specialize (K c (in_range c 256 C)).
  rewrite forallb_forall in K. specialize (K t (in_range t 64 H)).
  destruct (bits_set 0 6 t (Some [c])) as [[|w ws] [d|]]; try discriminate. apply leqb_spec in K. now subst.
Qed.
Lemma getbits06_check : forallb (fun c => match bits_get 0 6 [c] with Ok v => v =? c mod 64 | _ => false end) (map Z.of_nat (seq 0 256)) = true.
Proof. vm_compute. reflexivity. Qed.
Lemma getbits06_ok c : is_byte c -> bits_get 0 6 [c] = Ok (c mod 64).
Proof.
  intros C. pose proof getbits06_check as K. rewrite forallb_forall in K. specialize (K c (in_range c 256 C)).
  destruct (bits_get 0 6 [c]) as [v|]; [|discriminate]. f_equal. lia.
Qed.
Definition retag (t : Z) (d : bytes) : bytes := match d with [] => [] | c :: r => (t + 64 * (c / 64)) :: r end.
Lemma retag_byte t c : 0 <= t < 64 -> is_byte c -> is_byte (t + 64 * (c / 64)) /\ (t + 64 * (c / 64)) mod 64 = t.
Proof. unfold is_byte. intros. lia. Qed.

Ltac list_n d H n :=
  match n with
  | O => destruct d; [clear H|discriminate H]
  | S ?m => let c := fresh "c" in destruct d as [|c d]; [discriminate H|]; list_n d H m
  end.
Ltac bytesof W := repeat match type of W with
  | Forall is_byte (_ :: _) => let B := fresh "B" in apply Forall_cons_iff in W as [B W]
  end.
Lemma mark_ok c t d : imag_subtype c = Some t -> length d = 9%nat -> wf_bytes d ->
  mark_part (Real c (Buf true d)) = oret (Real c (Buf true (retag t d))) /\ 0 <= t < 64.
Proof.
  intros E L W. assert (T : 0 <= t < 64) by (destruct c; try discriminate E; injection E as <-; lia). split; [|exact T].
  unfold mark_part. cbn [r_cls r_buf]. rewrite E. unfold set_subtype, view_get. cbn [b_data v_start v_stop real_view].
  list_n d L 9%nat. unfold wf_bytes in W. bytesof W.
  change (py_slice _ (Some 0) (Some 1)) with [c0]. rewrite bits06_ok by auto. reflexivity.
Qed.
Lemma set_real_ok e c t d D : e_data e = Buf true D -> length D = 18%nat -> wf_bytes D ->
  imag_subtype c = Some t -> length d = 9%nat -> wf_bytes d ->
  set_real e (Real c (Buf true d)) = oret (with_data e (Buf true (retag t d ++ skipn 9 D)), Real c (Buf true (retag t d))).
Proof.
  intros ED LD WD E L W. unfold set_real. destruct (mark_ok c t d E L W) as [-> T].
  rewrite ED. list_n d L 9%nat. list_n D LD 18%nat. reflexivity.
Qed.
Lemma set_type_ok e t0 t : e_type e = [t0] -> is_byte t0 -> 0 <= t < 64 -> set_type_id e t = oret (with_type e [t]).
Proof.
  intros E B H. unfold set_type_id. rewrite E. 
  assert (K : forallb (fun c => forallb (fun t => match bits_set 0 8 t (Some [c]) with
    | ([], Ok d) => leqb d [t] | _ => false end) (map Z.of_nat (seq 0 64))) (map Z.of_nat (seq 0 256)) = true) by (vm_compute; reflexivity).
  rewrite forallb_forall in K. specialize (K t0 (in_range t0 256 B)).
  rewrite forallb_forall in K. specialize (K t (in_range t 64 H)).
  assert (Q : bits_set 0 8 t (Some ([t0] : bytes)) = ([], Ok [t])).
  { unfold bytes in *. destruct (bits_set 0 8 t (Some [t0])) as [[|w ws] [d|]]; try discriminate. apply leqb_spec in K. now subst d. }
  rewrite Q. reflexivity.
Qed.
(** The complex class made by an imaginary part of class [c]. *)
Definition complex_of (c : cls) : cls :=
  match c with
  | KRealFraction => KComplexFraction | KRealRadical => KComplexRadical
  | KRealPi => KComplexPi | KRealPiFraction => KComplexPiFraction | _ => KComplex
  end.
Lemma set_imag_ok e t0 c t d D : e_type e = [t0] -> is_byte t0 -> e_data e = Buf true D -> length D = 18%nat -> wf_bytes D ->
  imag_subtype c = Some t -> length d = 9%nat -> wf_bytes d ->
  set_imag e (Real c (Buf true d)) =
    oret (with_cls (with_type (with_data e (Buf true (firstn 9 D ++ retag t d))) [t]) (complex_of c), Real c (Buf true (retag t d))).
Proof.
  intros ET B0 ED LD WD E L W. unfold set_imag. cbn [r_cls]. rewrite E. destruct (mark_ok c t d E L W) as [MK T]. rewrite MK. clear MK.
  rewrite ED. list_n D LD 18%nat. unfold wf_bytes in WD. bytesof WD.
  unfold set_bits_at, view_get. cbn [b_data v_start v_stop]. change (py_slice _ (Some 9) (Some (9 + 1))) with [c9].
  rewrite bits06_ok by auto.
  match goal with |- obind ?m _ = _ => change m with (@oret buffer (Buf true [c0; c1; c2; c3; c4; c5; c6; c7; c8; t + 64 * (c9 / 64); c10; c11; c12; c13; c14; c15; c16; c17])) end.
  rewrite obind_oret. unfold coerce_complex, get_bits_at, view_get. cbn [b_data v_start v_stop e_data with_data].
  change (py_slice _ (Some 9) (Some (9 + 1))) with [t + 64 * (c9 / 64)].
  destruct (retag_byte t c9) as [R1 R2]; auto. rewrite getbits06_ok, R2 by auto. cbn [section_get olift]. rewrite obind_oret.
  unfold olift. rewrite obind_ret_l. rewrite (set_type_ok _ t0 t) by auto.
  rewrite obind_oret. assert (TT : type_id (with_type (with_data e (Buf true [c0; c1; c2; c3; c4; c5; c6; c7; c8; t + 64 * (c9 / 64); c10; c11; c12; c13; c14; c15; c16; c17])) [t]) = Ok t).
  { apply type_id_byte; [reflexivity|unfold is_byte; lia]. }
  rewrite TT, obind_ret_l.
  assert (GT : get_type t = Some (complex_of c)) by (destruct c; try discriminate E; injection E as <-; reflexivity).
  rewrite GT, obind_oret. cbn [e_data with_cls with_type with_data r_buf b_data].
  list_n d L 9%nat. reflexivity.
Qed.

Lemma real_get_ok c t x d D : In (c, t, x) part_kinds -> length d = 9%nat ->
  real_get c (py_slice (d ++ D) (Some 0) (Some 9)) = oret (Real c (Buf true d)).
Proof.
  intros I L. rewrite (py_slice_nn _ 0 9) by (rewrite ?zlen_app; unfold zlen; lia). change (Z.to_nat (9 - 0)) with 9%nat. change (skipn (Z.to_nat 0) (d ++ D)) with (d ++ D).
  rewrite firstn_app_exact by auto. unfold real_get.
  list_n d L 9%nat. cbn in I. repeat (destruct I as [I|I]; [injection I as <- <- <-; reflexivity|]). destruct I.
Qed.
Lemma real_get_ok2 c t x d D : In (c, t, x) part_kinds -> length d = 9%nat -> length D = 9%nat ->
  real_get c (py_slice (D ++ d) (Some 9) (Some 18)) = oret (Real c (Buf true d)).
Proof.
  intros I L LD. rewrite (py_slice_nn _ 9 18) by (rewrite ?zlen_app; unfold zlen; lia). change (Z.to_nat (18 - 9)) with 9%nat. change (Z.to_nat 9) with 9%nat.
  rewrite skipn_app_exact by auto. rewrite firstn_ge by lia. unfold real_get.
  list_n d L 9%nat. cbn in I. repeat (destruct I as [I|I]; [injection I as <- <- <-; reflexivity|]). destruct I.
Qed.
Lemma part_kind_sub c t x : In (c, t, x) part_kinds -> imag_subtype c = Some t /\ part_type t = Ok c /\ complex_of c = x /\ 0 <= t < 64.
Proof. intros I. cbn in I. repeat (destruct I as [I|I]; [injection I as <- <- <-; repeat split; lia|]). destruct I. Qed.
Lemma retag_same t d : length d = 9%nat -> wf_bytes d -> 0 <= t < 64 -> same_number d (retag t d) /\ wf_bytes (retag t d).
Proof.
  intros L W T. list_n d L 9%nat. unfold wf_bytes in *. bytesof W. split.
  - split; [reflexivity|]. split; [reflexivity|]. split; [|reflexivity]. cbn [retag nth]. unfold is_byte in *. lia.
  - cbn [retag]. repeat (apply Forall_cons; [auto; try apply retag_byte; auto|]). apply Forall_nil.
Qed.
Lemma retag_length t d : length (retag t d) = length d. Proof. now destruct d. Qed.
Lemma get_real_ok e c t x d D : In (c, t, x) part_kinds -> length d = 9%nat -> wf_bytes d -> e_data e = Buf true (retag t d ++ D) ->
  get_real e = oret (Real c (Buf true (retag t d))).
Proof.
  intros I L W E. destruct (part_kind_sub c t x I) as (_ & P & _ & T). unfold get_real, real_type, real_subtype. rewrite E.
  assert (N : nth_error (b_data (Buf true (retag t d ++ D))) 0 = Some (t + 64 * (nth 0 d 0 / 64))) by (list_n d L 9%nat; reflexivity).
  change 0 with (Z.of_nat 0) at 1. rewrite (get_bits_at_nth _ _ _ N).
  assert (B : is_byte (nth 0 d 0)) by (list_n d L 9%nat; unfold wf_bytes in W; bytesof W; auto).
  destruct (retag_byte t (nth 0 d 0)) as [_ ->]; auto. cbn [rbind]. rewrite P. unfold olift. rewrite obind_ret_l.
  unfold view_get. cbn [b_data v_start v_stop]. now apply (real_get_ok c t x); [|rewrite retag_length].
Qed.
Lemma get_imag_ok e c t x d D : In (c, t, x) part_kinds -> length d = 9%nat -> wf_bytes d -> length D = 9%nat -> e_data e = Buf true (D ++ retag t d) ->
  get_imag e = oret (Real c (Buf true (retag t d))).
Proof.
  intros I L W LD E. destruct (part_kind_sub c t x I) as (_ & P & _ & T). unfold get_imag, imag_type, imag_subtype_get. rewrite E.
  assert (N : nth_error (b_data (Buf true (D ++ retag t d))) 9 = Some (t + 64 * (nth 0 d 0 / 64))) by (list_n d L 9%nat; list_n D LD 9%nat; reflexivity).
  change 9 with (Z.of_nat 9) at 1. rewrite (get_bits_at_nth _ _ _ N).
  assert (B : is_byte (nth 0 d 0)) by (list_n d L 9%nat; unfold wf_bytes in W; bytesof W; auto).
  destruct (retag_byte t (nth 0 d 0)) as [_ ->]; auto. cbn [rbind]. rewrite P. unfold olift. rewrite obind_ret_l.
  unfold view_get. cbn [b_data v_start v_stop]. now apply (real_get_ok2 c t x); [|rewrite retag_length|].
Qed.

(** * Text *)
Definition minus1 (s : str) : str := if leqb s (s2l "-") then s2l "-" else [].
Lemma plain_no c s : plain s -> In c (s2l "+-*[ij") -> ~ In c s.
Proof. intros [_ H] I J. destruct (H c J) as [K _]. contradiction. Qed.
Lemma parts_gen s sa A sb B u : unspaced s = sa ++ A ++ sb ++ B ++ u -> plain A ->
  (forall c, In c (s2l "+-*[ij") -> ~ In c B) -> is_unit u ->
  In sa [s2l ""; s2l "+"; s2l "-"] -> In sb [s2l "+"; s2l "-"] ->
  complex_parts s = Ok (unplus sa ++ A, match unplus sb ++ B with [] => s2l "1" | q => q end).
Proof.
  intros E PA NB U Ia Ib. unfold complex_parts, complex_norm. rewrite <- unspaced_squash, E. unfold replacer. cbn [fold_left fst snd].
  assert (NA : forall c, In c (s2l "+-*[ij") -> ~ In c A) by (intros; now apply plain_no).
  assert (M : forall c, memb c (s2l "+-*[ij") = true -> In c (s2l "+-*[ij")) by (intros c; apply memb_spec).
  change (s2l "*") with ([42] : list Z) at 1.
  rewrite (str_replace_none 42).
  2:{ repeat apply in_app3; try (apply NA || apply NB; now apply M).
      - destruct Ia as [<-|[<-|[<-|[]]]]; cbn; lia.
      - destruct Ib as [<-|[<-|[]]]; cbn; lia.
      - destruct U as [<-|[<-|[<-|[]]]]; cbn; lia. }
  change (s2l "-") with ([45] : list Z) at 1. rewrite !replace1_app.
  rewrite (str_replace_none 45) with (s := A) by (apply NA; now apply M).
  rewrite (str_replace_none 45) with (s := B) by (apply NB; now apply M).
  set (sa' := str_replace [45] (s2l "+-") sa). set (sb' := str_replace [45] (s2l "+-") sb).
  replace (str_replace [45] (s2l "+-") u) with u by (destruct U as [<-|[<-|[<-|[]]]]; reflexivity).
  assert (HA : sa' = [] /\ unplus sa = [] \/ sa' = s2l "+" ++ unplus sa /\ (unplus sa = [] \/ unplus sa = s2l "-")).
  { destruct Ia as [<-|[<-|[<-|[]]]]; cbn; auto. }
  assert (HB : sb' = 43 :: unplus sb /\ (unplus sb = [] \/ unplus sb = s2l "-")).
  { destruct Ib as [<-|[<-|[]]]; cbn; auto. }
  destruct HB as [HB1 HB2].
  assert (NP : forall c, c <> 43 -> c <> 45 -> ~ In c sa' /\ ~ In c sb').
  { intros c H1 H2. rewrite HB1. split.
    - destruct HA as [[-> _]|[-> [->| ->]]]; cbn; lia.
    - destruct HB2 as [->| ->]; cbn; lia. }
  rewrite <- ?app_assoc.
  assert (R3 : str_replace (s2l "[i]") (s2l "i") (sa' ++ A ++ sb' ++ B ++ u) = sa' ++ A ++ sb' ++ B ++ (if leqb u (s2l "[i]") then s2l "i" else u)).
  { change (s2l "[i]") with (91 :: s2l "i]") at 1.
    rewrite str_replace_app by (apply NP; lia). rewrite str_replace_app by (apply NA; now apply M). rewrite str_replace_app by (apply NP; lia).
    rewrite str_replace_app by (apply NB; now apply M). repeat f_equal. destruct U as [<-|[<-|[<-|[]]]]; reflexivity. }
  rewrite R3. clear R3.
  assert (R4 : str_replace (s2l "j") (s2l "i") (sa' ++ A ++ sb' ++ B ++ (if leqb u (s2l "[i]") then s2l "i" else u)) = sa' ++ A ++ sb' ++ B ++ s2l "i").
  { change (s2l "j") with ([106] : list Z).
    rewrite str_replace_app by (apply NP; lia). rewrite str_replace_app by (apply NA; now apply M). rewrite str_replace_app by (apply NP; lia).
    rewrite str_replace_app by (apply NB; now apply M). repeat f_equal. destruct U as [<-|[<-|[<-|[]]]]; reflexivity. }
  rewrite R4. clear R4.
  assert (ST : strip (s2l "+") (sa' ++ A ++ sb' ++ B ++ s2l "i") = (unplus sa ++ A) ++ 43 :: (unplus sb ++ B ++ s2l "i")).
  { unfold strip. assert (LS : lstrip (s2l "+") (sa' ++ A ++ sb' ++ B ++ s2l "i") = unplus sa ++ A ++ sb' ++ B ++ s2l "i").
    { assert (NL : lstrip (s2l "+") (unplus sa ++ A ++ sb' ++ B ++ s2l "i") = unplus sa ++ A ++ sb' ++ B ++ s2l "i").
      { apply lstrip_id. intros c r Q. destruct HA as [[_ X]|[_ [X|X]]]; rewrite X in Q; cbn [app] in Q.
        1,2: destruct A as [|a A']; [now destruct PA|]; injection Q as <- _; intros [<-|[]]; apply (NA 43); [now apply M|now left].
        injection Q as <- _. cbn. lia. }
      destruct HA as [[-> H]|[-> H]].
      - rewrite H in NL. now rewrite H.
      - rewrite <- app_assoc. rewrite lstrip_app by (repeat constructor). exact NL. }
    rewrite LS, HB1. rewrite <- ?app_assoc. cbn [app].
    replace (unplus sa ++ A ++ 43 :: unplus sb ++ B ++ s2l "i") with ((unplus sa ++ A ++ 43 :: unplus sb ++ B) ++ [105]) by (now rewrite <- !app_assoc; cbn; rewrite <- !app_assoc).
    apply rstrip_snoc_id. cbn. lia. }
  rewrite ST. clear ST.
  assert (NpA : ~ In 43 (unplus sa ++ A)).
  { apply in_app3; [|apply NA; now apply M]. destruct HA as [[_ ->]|[_ [->| ->]]]; cbn; lia. }
  assert (NpB : ~ In 43 (unplus sb ++ B ++ s2l "i")).
  { apply in_app3; [destruct HB2 as [->| ->]; cbn; lia|]. apply in_app3; [apply NB; now apply M|cbn; lia]. }
  rewrite split_on_app by exact NpA. rewrite split_on_none by exact NpB.
  assert (NE : unplus sa ++ A <> []) by (destruct PA as [PA _]; destruct A; [contradiction|]; destruct (unplus sa); discriminate).
  destruct (unplus sa ++ A) as [|p0 p]; [contradiction|].
  assert (R5 : str_replace (s2l "i") [] (unplus sb ++ B ++ s2l "i") = unplus sb ++ B).
  { change (s2l "i") with ([105] : list Z). rewrite !replace1_app.
    rewrite (str_replace_none 105) with (s := B) by (apply NB; now apply M).
    replace (str_replace [105] [] (unplus sb)) with (unplus sb) by (destruct HB2 as [->| ->]; reflexivity).
    change (str_replace [105] [] [105]) with (@nil Z). now rewrite app_nil_r. }
  cbn [pick_parts]. rewrite R5. now destruct (unplus sb ++ B).
Qed.
Lemma parts_ok s sa A sb B u : unspaced s = sa ++ A ++ sb ++ B ++ u -> plain A -> plain B -> is_unit u ->
  In sa [s2l ""; s2l "+"; s2l "-"] -> In sb [s2l "+"; s2l "-"] ->
  complex_parts s = Ok (unplus sa ++ A, unplus sb ++ B).
Proof.
  intros E PA PB U Ia Ib. rewrite (parts_gen s sa A sb B u); auto; [|intros; now apply plain_no].
  destruct (unplus sb ++ B) as [|q0 q] eqn:Q; [|reflexivity].
  exfalso. apply app_eq_nil in Q as [_ Q]. destruct PB as [PB _]. contradiction.
Qed.

(** * Text with more than two summands *)
Lemma rstrip_tail cs P c Y : ~ In c cs -> rstrip cs ((P ++ [c]) ++ Y) = (P ++ [c]) ++ rstrip cs Y.
Proof.
  intros N. unfold rstrip. rewrite rev_app_distr.
  assert (G : forall l, lstrip cs (l ++ rev (P ++ [c])) = lstrip cs l ++ rev (P ++ [c])).
  { induction l as [|x l IH].
    - cbn [app lstrip]. rewrite rev_unit. cbn [lstrip]. now replace (memb c cs) with false by (symmetry; now apply memb_false).
    - cbn [app lstrip]. destruct (memb x cs); [exact IH|reflexivity]. }
  rewrite G, rev_app_distr, rev_involutive. reflexivity.
Qed.
Lemma rstrip_head X : rstrip (s2l "+") (43 :: X) = [] \/ exists Y, rstrip (s2l "+") (43 :: X) = 43 :: Y.
Proof.
  assert (G : forall l, exists k, l = k ++ lstrip (s2l "+") l /\ Forall (fun c => c = 43) k).
  { induction l as [|x l (k & E & F)]; [exists []; split; [reflexivity|constructor]|]. cbn [lstrip]. destruct (memb x (s2l "+")) eqn:M.
    - apply memb_spec in M as [M|[]]. exists (x :: k). split; [cbn [app]; f_equal; exact E|]. constructor; [now rewrite <- M|exact F].
    - exists []. split; [reflexivity|constructor]. }
  destruct (G (rev (43 :: X))) as (k & E & _). unfold rstrip. set (l := lstrip (s2l "+") (rev (43 :: X))) in *.
  apply (f_equal (@rev Z)) in E. rewrite rev_involutive, rev_app_distr in E.
  destruct (rev l) as [|y r]; [now left|right]. cbn [app] in E. injection E as <- _. now exists r.
Qed.
Lemma parts_tail s sa A sb B u sc R : unspaced s = sa ++ A ++ sb ++ B ++ u ++ sc ++ R -> plain A ->
  (forall c, In c (s2l "+-*[ij") -> ~ In c B) -> is_unit u \/ (u = [] /\ B <> []) ->
  In sa [s2l ""; s2l "+"; s2l "-"] -> In sb [s2l "+"; s2l "-"] -> In sc [s2l "+"; s2l "-"] ->
  complex_parts s = Ok (unplus sa ++ A, match unplus sb ++ B with [] => s2l "1" | q => q end).
Proof.
  intros E PA NB U Ia Ib Ic. unfold complex_parts, complex_norm. rewrite <- unspaced_squash, E. unfold replacer. cbn [fold_left fst snd].
  assert (NA : forall c, In c (s2l "+-*[ij") -> ~ In c A) by (intros; now apply plain_no).
  assert (M : forall c, memb c (s2l "+-*[ij") = true -> In c (s2l "+-*[ij")) by (intros c; apply memb_spec).
  change (s2l "*") with ([42] : list Z) at 1. change (s2l "-") with ([45] : list Z) at 1. rewrite !replace1_app.
  rewrite !(str_replace_none 42) with (s := A) by (apply NA; now apply M). rewrite !(str_replace_none 42) with (s := B) by (apply NB; now apply M).
  rewrite (str_replace_none 45) with (s := A) by (apply NA; now apply M). rewrite (str_replace_none 45) with (s := B) by (apply NB; now apply M).
  replace (str_replace [45] (s2l "+-") (str_replace [42] [] sa)) with (str_replace [45] (s2l "+-") sa) by (destruct Ia as [<-|[<-|[<-|[]]]]; reflexivity).
  replace (str_replace [45] (s2l "+-") (str_replace [42] [] sb)) with (str_replace [45] (s2l "+-") sb) by (destruct Ib as [<-|[<-|[]]]; reflexivity).
  replace (str_replace [45] (s2l "+-") (str_replace [42] [] u)) with u by (destruct U as [[<-|[<-|[<-|[]]]]|[-> _]]; reflexivity).
  assert (HC : exists x, str_replace [45] (s2l "+-") (str_replace [42] [] sc) = 43 :: x /\ ~ In 91 x) by (destruct Ic as [<-|[<-|[]]]; eexists; (split; [reflexivity|cbn; lia])).
  destruct HC as (x & -> & Nx). set (R1 := str_replace [45] (s2l "+-") (str_replace [42] [] R)).
  set (sa' := str_replace [45] (s2l "+-") sa). set (sb' := str_replace [45] (s2l "+-") sb).
  assert (HA : sa' = [] /\ unplus sa = [] \/ sa' = s2l "+" ++ unplus sa /\ (unplus sa = [] \/ unplus sa = s2l "-")).
  { destruct Ia as [<-|[<-|[<-|[]]]]; cbn; auto. }
  assert (HB : sb' = 43 :: unplus sb /\ (unplus sb = [] \/ unplus sb = s2l "-")).
  { destruct Ib as [<-|[<-|[]]]; cbn; auto. }
  destruct HB as [HB1 HB2].
  assert (NP : forall c, c <> 43 -> c <> 45 -> ~ In c sa' /\ ~ In c sb').
  { intros c H1 H2. rewrite HB1. split.
    - destruct HA as [[-> _]|[-> [->| ->]]]; cbn; lia.
    - destruct HB2 as [->| ->]; cbn; lia. }
  set (u1 := match u with [] => [] | _ => s2l "i" end).
  assert (R3 : exists X, str_replace (s2l "j") (s2l "i") (str_replace (s2l "[i]") (s2l "i") (sa' ++ A ++ sb' ++ B ++ u ++ (43 :: x) ++ R1)) = sa' ++ A ++ sb' ++ B ++ u1 ++ 43 :: X).
  { change (s2l "[i]") with (91 :: s2l "i]").
    rewrite str_replace_app by (apply NP; lia). rewrite str_replace_app by (apply NA; now apply M). rewrite str_replace_app by (apply NP; lia).
    rewrite str_replace_app by (apply NB; now apply M).
    assert (HU : exists u2 X, str_replace (91 :: s2l "i]") (s2l "i") (u ++ (43 :: x) ++ R1) = u2 ++ 43 :: X /\ str_replace (s2l "j") (s2l "i") u2 = u1).
    { assert (T : str_replace (91 :: s2l "i]") (s2l "i") ((43 :: x) ++ R1) = 43 :: x ++ str_replace (91 :: s2l "i]") (s2l "i") R1).
      { rewrite str_replace_app by (apply not_in_cons; [lia|exact Nx]). reflexivity. }
      destruct U as [[<-|[<-|[<-|[]]]]|[-> _]].
      - rewrite str_replace_app by (cbn; lia). rewrite T. exists (s2l "i"), (x ++ str_replace (91 :: s2l "i]") (s2l "i") R1). split; reflexivity.
      - rewrite str_replace_app by (cbn; lia). rewrite T. exists (s2l "j"), (x ++ str_replace (91 :: s2l "i]") (s2l "i") R1). split; reflexivity.
      - change (s2l "[i]") with (91 :: s2l "i]"). rewrite str_replace_hit, T. exists (s2l "i"), (x ++ str_replace (91 :: s2l "i]") (s2l "i") R1). split; reflexivity.
      - cbn [app]. change (43 :: x ++ R1) with ((43 :: x) ++ R1). rewrite T. exists [], (x ++ str_replace (91 :: s2l "i]") (s2l "i") R1). split; reflexivity. }
    destruct HU as (u2 & X & -> & HU). change (s2l "j") with ([106] : list Z) in *.
    rewrite str_replace_app by (apply NP; lia). rewrite str_replace_app by (apply NA; now apply M). rewrite str_replace_app by (apply NP; lia).
    rewrite str_replace_app by (apply NB; now apply M). rewrite replace1_app, HU.
    exists (str_replace [106] (s2l "i") X). change (43 :: X) with ([43] ++ X). now rewrite (replace1_app 106 _ [43] X). }
  destruct R3 as [X ->]. set (P := unplus sa ++ A). set (Q := unplus sb ++ B ++ u1).
  assert (QL : exists Q0 c, Q = Q0 ++ [c] /\ c <> 43).
  { unfold Q, u1. destruct U as [U|[-> U]].
    - exists (unplus sb ++ B), 105. split; [|lia]. destruct U as [<-|[<-|[<-|[]]]]; now rewrite app_assoc.
    - destruct (exists_last U) as (b0 & c & EB). rewrite EB. exists (unplus sb ++ b0), c. rewrite app_nil_r, app_assoc. split; [reflexivity|].
      intros ->. apply (NB 43); [now apply M|]. rewrite EB. apply in_or_app. right. now left. }
  assert (ST : strip (s2l "+") (sa' ++ A ++ sb' ++ B ++ u1 ++ 43 :: X) = P ++ 43 :: Q ++ rstrip (s2l "+") (43 :: X)).
  { unfold strip. assert (LS : lstrip (s2l "+") (sa' ++ A ++ sb' ++ B ++ u1 ++ 43 :: X) = P ++ 43 :: Q ++ 43 :: X).
    { assert (RE : A ++ sb' ++ B ++ u1 ++ 43 :: X = A ++ 43 :: Q ++ 43 :: X) by (unfold Q; rewrite HB1; cbn [app]; now rewrite <- !app_assoc).
      assert (NL : lstrip (s2l "+") (P ++ 43 :: Q ++ 43 :: X) = P ++ 43 :: Q ++ 43 :: X).
      { apply lstrip_id. intros c r W. unfold P in W. destruct HA as [[_ H]|[_ [H|H]]]; rewrite H in W; cbn [app] in W.
        1,2: destruct A as [|a A']; [now destruct PA|]; injection W as <- _; intros [<-|[]]; apply (NA 43); [now apply M|now left].
        injection W as <- _. cbn. lia. }
      rewrite RE. unfold P in *. rewrite <- app_assoc in *. destruct HA as [[-> H]|[-> H]].
      - rewrite H in NL |- *. exact NL.
      - rewrite <- app_assoc. rewrite lstrip_app by (repeat constructor). exact NL. }
    rewrite LS. destruct QL as (Q0 & c & EQ & NC). rewrite EQ.
    replace (P ++ 43 :: (Q0 ++ [c]) ++ 43 :: X) with (((P ++ 43 :: Q0) ++ [c]) ++ 43 :: X) by (repeat (rewrite <- app_assoc; cbn [app]); reflexivity).
    rewrite rstrip_tail by (cbn; lia). repeat (rewrite <- app_assoc; cbn [app]). reflexivity. }
  rewrite ST. clear ST.
  assert (NpA : ~ In 43 P).
  { apply in_app3; [|apply NA; now apply M]. destruct HA as [[_ ->]|[_ [->| ->]]]; cbn; lia. }
  assert (NpB : ~ In 43 Q).
  { apply in_app3; [destruct HB2 as [->| ->]; cbn; lia|]. apply in_app3; [apply NB; now apply M|unfold u1; destruct u; cbn; lia]. }
  rewrite split_on_app by exact NpA.
  assert (SQ : exists r, split_on 43 (Q ++ rstrip (s2l "+") (43 :: X)) = Q :: r).
  { destruct (rstrip_head X) as [->|[Y ->]]; [rewrite app_nil_r, split_on_none by exact NpB; now exists []|rewrite split_on_app by exact NpB; eauto]. }
  destruct SQ as [r ->].
  assert (NE : P <> []) by (unfold P; destruct PA as [PA _]; destruct A; [contradiction|]; destruct (unplus sa); discriminate).
  destruct P as [|p0 p]; [contradiction|].
  assert (R5 : str_replace (s2l "i") [] Q = unplus sb ++ B).
  { unfold Q. change (s2l "i") with ([105] : list Z). rewrite !replace1_app.
    rewrite (str_replace_none 105) with (s := B) by (apply NB; now apply M).
    replace (str_replace [105] [] (unplus sb)) with (unplus sb) by (destruct HB2 as [->| ->]; reflexivity).
    replace (str_replace [105] [] u1) with (@nil Z) by (unfold u1; destruct u; reflexivity). now rewrite app_nil_r. }
  cbn [pick_parts]. rewrite R5. now destruct (unplus sb ++ B).
Qed.

(** The parser of literals, step by step. *)
Definition rp_dot (s : str) : str :=
  let s := if memb 101 s then s else s ++ s2l "e0" in
  if memb 46 s then s else str_replace (s2l "e") (s2l ".e") s.
Definition rp_end (neg : bool) (s : str) : result (Z * Z * bool) :=
  match split_on 101 s with
  | [number; exponent] =>
      match split_on 46 number with
      | [integer; decimal] =>
          let integer := or_zero integer in
          let decimal := or_zero decimal in
          try i := parse_int 10 integer in
          try d := parse_int 10 decimal in
          if (i =? d) && (d =? 0) then Ok (0, 128, neg)
          else
            try e := parse_int 10 (or_zero exponent) in
            try (integer, decimal, e) := shift_point (S (length integer + length decimal)) integer decimal e in
            try m := parse_int 10 (firstn 14 (ljust_zero 14 (integer ++ decimal))) in
            Ok (m, e + 128, neg)
      | _ => Err ValueError
      end
  | _ => Err ValueError
  end.
Lemma real_parse_steps s : s <> [] -> real_parse s =
  let t := rp_dot (replacer (lower (squash s)) [(s2l "~", s2l "-"); (s2l "|e", s2l "e")]) in
  rp_end (starts_with (s2l "-") t) (strip (s2l "+-") t).
Proof. destruct s; [congruence|reflexivity]. Qed.
(** A bare "e" behind a literal changes nothing. *)
Lemma bare_exponent z : (forall c, In c z -> c = 45 \/ c = 46 \/ 48 <= c <= 57) -> real_parse (z ++ s2l "e") = real_parse z.
Proof.
  intros H. destruct (list_eq_dec Z.eq_dec z []) as [->|NZ]; [reflexivity|].
  assert (N : forall c, ~ (c = 45 \/ c = 46 \/ 48 <= c <= 57) -> ~ In c z) by (intros c X I; now apply X, H).
  assert (SQ : forall x, (forall c, In c x -> c = 101 \/ c = 45 \/ c = 46 \/ 48 <= c <= 57) -> replacer (lower (squash x)) [(s2l "~", s2l "-"); (s2l "|e", s2l "e")] = x).
  { intros x Hx. replace (squash x) with x.
    2:{ clear -Hx. unfold squash. induction x as [|c x IH]; [reflexivity|]. cbn [filter]. assert (C := Hx c (or_introl eq_refl)).
        replace (is_space c) with false by (unfold is_space; lia). cbn [negb]. f_equal. apply IH. intros; apply Hx; now right. }
    replace (lower x) with x.
    2:{ clear -Hx. unfold lower. induction x as [|c x IH]; [reflexivity|]. cbn [map]. assert (C := Hx c (or_introl eq_refl)).
        f_equal; [destruct ((65 <=? c) && (c <=? 90)) eqn:B; lia|]. apply IH. intros; apply Hx; now right. }
    unfold replacer. cbn [fold_left fst snd]. change (s2l "~") with [126]. change (s2l "|e") with (124 :: s2l "e").
    rewrite (str_replace_none 126) by (intros I; apply Hx in I; lia). apply str_replace_none. intros I; apply Hx in I; lia. }
  assert (HE : forall c, In c (z ++ s2l "e") -> c = 101 \/ c = 45 \/ c = 46 \/ 48 <= c <= 57) by (intros c I; apply in_app_or in I as [I|[I|[]]]; [right; now apply H|left; now rewrite <- I]).
  rewrite (real_parse_steps z), (real_parse_steps (z ++ s2l "e")) by (auto; destruct z; discriminate).
  rewrite (SQ (z ++ s2l "e") HE), (SQ z) by (intros; right; now apply H). cbv zeta. unfold rp_dot.
  replace (memb 101 (z ++ s2l "e")) with true by (symmetry; apply memb_spec; rewrite in_app_iff; cbn; tauto).
  replace (memb 101 z) with false by (symmetry; apply memb_false, N; lia). cbv iota zeta.
  replace (memb 46 (z ++ s2l "e0")) with (memb 46 (z ++ s2l "e")).
  2:{ apply Bool.eq_iff_eq_true. rewrite !memb_spec, !in_app_iff. cbn. intuition lia. }
  assert (F : forall t, t = s2l "e" \/ t = s2l "e0" -> exists w, (forall c, In c w -> c = 45 \/ c = 46 \/ 48 <= c <= 57) /\
     (if memb 46 (z ++ s2l "e") then z ++ t else str_replace (s2l "e") (s2l ".e") (z ++ t)) = w ++ t /\ w = if memb 46 (z ++ s2l "e") then z else z ++ [46]).
  { intros t T. destruct (memb 46 (z ++ s2l "e")).
    - exists z. split; [exact H|split; reflexivity].
    - exists (z ++ [46]). split; [intros c I; apply in_app_or in I as [I|[I|[]]]; [now apply H|auto]|]. split; [|reflexivity].
      change (s2l "e") with [101]. rewrite str_replace_app by (apply N; lia). rewrite <- app_assoc. f_equal. destruct T as [->| ->]; reflexivity. }
  destruct (F (s2l "e") (or_introl eq_refl)) as (w & Hw & E1 & Ew). destruct (F (s2l "e0") (or_intror eq_refl)) as (w' & _ & E2 & Ew').
  assert (W : w' = w) by (rewrite Ew; exact Ew'). rewrite W in E2.
  set (f := fun t : str => rp_end (starts_with (s2l "-") t) (strip (s2l "+-") t)).
  etransitivity; [exact (f_equal f E1)|]. symmetry. etransitivity; [exact (f_equal f E2)|]. symmetry. unfold f. clear - Hw.
  assert (SW : starts_with (s2l "-") (w ++ s2l "e") = starts_with (s2l "-") (w ++ s2l "e0")) by (destruct w; reflexivity). rewrite SW.
  assert (G : forall t c r, t = c :: r -> ~ In c (s2l "+-") -> lstrip (s2l "+-") (w ++ t) = lstrip (s2l "+-") w ++ t).
  { intros t c r -> X. clear Hw SW. induction w as [|a w IH]; cbn [app lstrip]; [now replace (memb c (s2l "+-")) with false by (symmetry; now apply memb_false)|].
    destruct (memb a (s2l "+-")); auto. }
  unfold strip. rewrite (G (s2l "e") 101 []) by (auto; cbn; lia). rewrite (G (s2l "e0") 101 [48]) by (auto; cbn; lia).
  assert (LI : forall c, In c (lstrip (s2l "+-") w) -> In c w).
  { clear. induction w as [|a w IH]; [intros c []|]. intros c. cbn [lstrip]. destruct (memb a (s2l "+-")); [right; auto|auto]. }
  set (v := lstrip (s2l "+-") w) in *. assert (NV : ~ In 101 v) by (intros I; apply LI, Hw in I; lia).
  change (s2l "e") with [101]. rewrite rstrip_snoc_id by (cbn; lia).
  replace (rstrip (s2l "+-") (v ++ s2l "e0")) with (v ++ s2l "e0").
  2:{ change (s2l "e0") with ([101] ++ [48]). rewrite app_assoc. symmetry. apply rstrip_snoc_id. cbn; lia. }
  unfold rp_end. change (v ++ [101]) with (v ++ 101 :: []). change (v ++ s2l "e0") with (v ++ 101 :: [48]). rewrite !split_on_app by exact NV. reflexivity.
Qed.

(** A plus sign at the end changes nothing. *)
Lemma starts_with_plus sub s : ~ In 43 sub -> starts_with sub (s ++ [43]) = starts_with sub s.
Proof.
  revert s. induction sub as [|x sub IH]; intros s N; [reflexivity|]. destruct s as [|y s]; cbn [app starts_with].
  - destruct (Z.eqb_spec x 43) as [->|]; [exfalso; apply N; now left|reflexivity].
  - f_equal. apply IH. intros I. apply N. now right.
Qed.
Lemma starts_with_length sub s : starts_with sub s = true -> (length sub <= length s)%nat.
Proof.
  revert s. induction sub as [|x sub IH]; intros s H; [cbn; lia|]. destruct s as [|y s]; [discriminate H|].
  cbn [starts_with] in H. apply andb_prop in H as [_ H]. apply IH in H. cbn [length]. lia.
Qed.
Lemma replace_plus sub rep s : ~ In 43 sub -> sub <> [] -> str_replace sub rep (s ++ [43]) = str_replace sub rep s ++ [43].
Proof.
  intros N NE. unfold str_replace. assert (G : forall k, (k <= length s)%nat -> str_replace_aux sub rep k (s ++ [43]) = str_replace_aux sub rep k s ++ [43]); [|apply G; lia].
  induction s as [|c s IH]; intros k L.
  - destruct k; [|cbn in L; lia]. cbn [app str_replace_aux]. replace (starts_with sub [43]) with false; [reflexivity|].
    symmetry. change [43] with ([] ++ [43]). rewrite (starts_with_plus sub []) by auto. destruct sub; [contradiction|reflexivity].
  - cbn [app str_replace_aux]. destruct k as [|k]; [|apply IH; cbn [length] in L; lia].
    change (c :: s ++ [43]) with ((c :: s) ++ [43]). rewrite starts_with_plus by auto. destruct (starts_with sub (c :: s)) eqn:B.
    + apply starts_with_length in B. cbn [length] in B. rewrite <- app_assoc. f_equal. apply IH. destruct sub; [contradiction|]. cbn [length pred] in *. lia.
    + cbn [app]. f_equal. apply IH. lia.
Qed.
Lemma parts_plus s : complex_parts (s ++ s2l "+") = complex_parts s.
Proof.
  unfold complex_parts. f_equal. f_equal.
  assert (E : complex_norm (s ++ s2l "+") = complex_norm s ++ s2l "+").
  { unfold complex_norm, replacer. cbn [fold_left fst snd]. unfold squash. rewrite filter_app. change (filter _ (s2l "+")) with (s2l "+").
    change (s2l "+") with [43]. rewrite !replace_plus by (try discriminate; cbn; lia). reflexivity. }
  rewrite E. unfold strip. generalize (complex_norm s). intros x.
  assert (G : lstrip (s2l "+") (x ++ s2l "+") = lstrip (s2l "+") x ++ s2l "+" \/ (lstrip (s2l "+") (x ++ s2l "+") = [] /\ lstrip (s2l "+") x = [])).
  { induction x as [|c x IH]; [now right|]. cbn [app lstrip]. destruct (memb c (s2l "+")); [exact IH|now left]. }
  destruct G as [->|[-> ->]]; [|reflexivity]. apply rstrip_app. repeat constructor.
Qed.

Lemma retag_decimal t d : length d = 9%nat -> wf_bytes d -> 0 <= t < 64 -> real_decimal (Buf true (retag t d)) = real_decimal (Buf true d).
Proof.
  intros L W T. list_n d L 9%nat. unfold wf_bytes in W. bytesof W. cbn [retag]. unfold real_decimal.
  rewrite sign_get; [|now apply retag_byte|reflexivity]. rewrite sign_get by auto. cbn [rbind].
  replace ((t + 64 * (c / 64)) / 128) with (c / 128) by (unfold is_byte in *; lia). reflexivity.
Qed.
Lemma real_new_real fp s d : real_load s (Buf true (zeros 9)) = (Buf true d, oret tt) -> real_new fp KReal s = oret (Real KReal (Buf true d)).
Proof.
  intros E. unfold real_new. change (real_fresh KReal) with (@oret buffer (Buf true (zeros 9))). rewrite obind_oret.
  cbn [part_load]. rewrite E. reflexivity.
Qed.
Lemma complex_load_ok fp s e t0 D p q da db : complex_parts s = Ok (p, q) ->
  e_type e = [t0] -> is_byte t0 -> e_data e = Buf true D -> length D = 18%nat -> wf_bytes D ->
  nth 0 D 0 mod 64 = 12 -> nth 9 D 0 mod 64 = 12 ->
  real_load p (Buf true (zeros 9)) = (Buf true da, oret tt) -> length da = 9%nat -> wf_bytes da ->
  real_load q (Buf true (zeros 9)) = (Buf true db, oret tt) -> length db = 9%nat -> wf_bytes db ->
  complex_load fp s e = oret (with_cls (with_type (with_data e (Buf true (retag 12 da ++ retag 12 db))) [12]) KComplex).
Proof.
  intros P ET B0 ED LD WD T1 T2 LA La Wa LB Lb Wb. unfold complex_load. rewrite P. unfold olift at 1. rewrite obind_ret_l.
  assert (RT : real_type e = Ok KReal).
  { unfold real_type, real_subtype. rewrite ED. change 0 with (Z.of_nat 0) at 1.
    rewrite (get_bits_at_nth 0 (Buf true D) (nth 0 D 0)); [|list_n D LD 18%nat; reflexivity]. rewrite T1. reflexivity. }
  rewrite RT. unfold olift at 1. rewrite obind_ret_l. rewrite (real_new_real fp p da LA), obind_oret.
  destruct (retag_same 12 da La Wa ltac:(lia)) as [_ Wr].
  rewrite (set_real_ok e KReal 12 da D) by auto. unfold oret at 1. cbv iota beta.
  set (e1 := with_data e (Buf true (retag 12 da ++ skipn 9 D))).
  rewrite obind_ret_l.
  assert (LD1 : length (retag 12 da ++ skipn 9 D) = 18%nat) by (rewrite app_length, retag_length, skipn_length; lia).
  assert (IT : imag_type e1 = Ok KReal).
  { unfold imag_type, imag_subtype_get, e1. cbn [e_data with_data]. change 9 with (Z.of_nat 9) at 1.
    rewrite (get_bits_at_nth 9 _ (nth 9 D 0)); [|list_n D LD 18%nat; list_n da La 9%nat; reflexivity]. rewrite T2. reflexivity. }
  rewrite IT. unfold olift at 1. rewrite obind_ret_l. rewrite (real_new_real fp q db LB), obind_oret.
  rewrite (set_imag_ok e1 t0 KReal 12 db (retag 12 da ++ skipn 9 D)); auto.
  2:{ apply wf_bytes_app. split; [exact Wr|now apply wf_skipn]. }
  rewrite obind_oret. rewrite firstn_app_exact by (now rewrite retag_length). reflexivity.
Qed.

(** * The text of a complex number *)
(** What [real_string] prints: an optional minus sign and plain text. *)
Definition signed_text (s A : str) : Prop := s = A \/ s = 45 :: A.
Lemma text_plain ds c : Forall digit ds -> In c (text_of ds) -> ~ In c (s2l "+-*[ij") /\ ~ In c spaces.
Proof.
  intros F I. unfold text_of in I. apply in_map_iff in I as (d & <- & I). rewrite Forall_forall in F. apply F in I. unfold digit in I.
  assert (R : 48 <= d + 48 < 58) by lia. revert R. generalize (d + 48). intros c R.
  split; intros J; vm_compute in J; lia.
Qed.
Lemma lit_plain l : lit_wf l -> l_exp l = None -> l_int l <> [] ->
  plain (text_of (l_int l) ++ match l_frac l with Some f => s2l "." ++ text_of f | None => [] end).
Proof.
  intros (_ & F & G & _) E N. split.
  - destruct (l_int l); [contradiction|discriminate].
  - intros c I. apply in_app_or in I as [I|I]; [now apply (text_plain (l_int l))|].
    unfold frac_digits in G. destruct (l_frac l) as [f|]; [|destruct I].
    apply in_app_or in I as [I|I]; [|now apply (text_plain f)]. destruct I as [<-|[]]. split; intros J; vm_compute in J; lia.
Qed.

Lemma plain_not c A : plain A -> In c (s2l "+-*[ij" ++ spaces) -> ~ In c A.
Proof. intros [_ H] I J. apply in_app_or in I as [I|I]; apply H in J; tauto. Qed.
Ltac inset := apply memb_spec; vm_compute; reflexivity.
Lemma lit_signed l (neg : bool) : lit_wf l -> l_exp l = None -> l_int l <> [] -> l_sign l = (if neg then s2l "-" else []) ->
  exists A, plain A /\ lit_text l = (if neg : bool then s2l "-" else []) ++ A.
Proof.
  intros W E N S. eexists. split; [exact (lit_plain l W E N)|]. unfold lit_text. rewrite E, S, app_nil_r. reflexivity.
Qed.
Definition sg (n : bool) : str := if n then s2l "-" else [].
Lemma plain_squash A : plain A -> squash A = A.
Proof.
  intros [_ P]. apply squash_id. apply Forall_forall. intros c I. destruct (is_space c) eqn:S; [|reflexivity]. exfalso.
  apply P in I as [_ I]. apply I. clear -S. unfold is_space in S. unfold spaces. cbn [In]. lia.
Qed.
Lemma squash_app a b : squash (a ++ b) = squash a ++ squash b. Proof. apply filter_app. Qed.

(** The pieces of a lone part. *)
Lemma parts_lone n A t : plain A -> t = [] \/ t = s2l "i" ->
  complex_parts (sg n ++ A ++ t) = Ok (match t with [] => (sg n ++ A, s2l "0") | _ => (s2l "0", sg n ++ A) end).
Proof.
  intros P T. assert (NA : forall c, In c (s2l "+-*[ij") -> ~ In c A) by (intros; now apply plain_no).
  assert (NE : A <> []) by apply P.
  assert (CN : complex_norm (sg n ++ A ++ t) = (if n then s2l "+-" else []) ++ A ++ t).
  { unfold complex_norm. rewrite !squash_app, (plain_squash A P).
    replace (squash (sg n)) with (sg n) by (destruct n; reflexivity). replace (squash t) with t by (destruct T as [->| ->]; reflexivity).
    unfold replacer. cbn [fold_left fst snd].
    change (s2l "*") with ([42] : list Z). rewrite !replace1_app.
    rewrite (str_replace_none 42) with (s := A) by (apply NA; inset).
    replace (str_replace [42] [] (sg n)) with (sg n) by (destruct n; reflexivity).
    replace (str_replace [42] [] t) with t by (destruct T as [->| ->]; reflexivity).
    change (s2l "-") with ([45] : list Z). rewrite !replace1_app.
    rewrite (str_replace_none 45) with (s := A) by (apply NA; inset).
    replace (str_replace [45] (s2l "+-") (sg n)) with (if n then s2l "+-" else []) by (destruct n; reflexivity).
    replace (str_replace [45] (s2l "+-") t) with t by (destruct T as [->| ->]; reflexivity).
    change (s2l "[i]") with ([91; 105; 93] : list Z).
    rewrite str_replace_app by (destruct n; cbn; lia). rewrite str_replace_app by (apply NA; inset).
    replace (str_replace [91; 105; 93] (s2l "i") t) with t by (destruct T as [->| ->]; reflexivity).
    change (s2l "j") with ([106] : list Z). rewrite !replace1_app.
    rewrite (str_replace_none 106) with (s := A) by (apply NA; inset).
    destruct n, T as [->| ->]; reflexivity. }
  unfold complex_parts. rewrite CN.
  assert (ST : strip (s2l "+") ((if n then s2l "+-" else []) ++ A ++ t) = sg n ++ A ++ t).
  { unfold strip. assert (LS : lstrip (s2l "+") ((if n then s2l "+-" else []) ++ A ++ t) = sg n ++ A ++ t).
    { destruct n; [reflexivity|]. cbn [app sg]. apply lstrip_id. intros c r Q. destruct A as [|a A']; [contradiction|].
      injection Q as <- _. intros [<-|[]]. apply (NA 43); [inset|now left]. }
    rewrite LS. destruct T as [->| ->].
    - rewrite !app_nil_r. destruct (exists_last NE) as (q & z & EA). rewrite EA, app_assoc. apply rstrip_snoc_id.
      intros [<-|[]]. apply (NA 43); [inset|]. rewrite EA. apply in_or_app. right. now left.
    - rewrite app_assoc. apply (rstrip_snoc_id (s2l "+") _ 105). cbn. lia. }
  rewrite ST. rewrite split_on_none.
  2:{ apply in_app3; [destruct n; cbn; lia|]. apply in_app3; [apply NA; inset|]. destruct T as [->| ->]; cbn; lia. }
  assert (HD : exists c r, sg n ++ A ++ t = c :: r) by (destruct n; [cbn; eauto|]; destruct A; [contradiction|cbn; eauto]).
  destruct HD as (c & r & HD).
  assert (M : memb 105 (sg n ++ A ++ t) = match t with [] => false | _ => true end).
  { destruct T as [->| ->].
    - apply memb_false. apply in_app3; [destruct n; cbn; lia|]. apply in_app3; [apply NA; inset|cbn; lia].
    - apply memb_spec. apply in_or_app. right. apply in_or_app. right. now left. }
  unfold pick_parts. rewrite HD. cbv beta iota zeta. rewrite <- HD, M. destruct T as [->| ->].
  - rewrite !app_nil_r in *. rewrite HD. reflexivity.
  - change (s2l "i") with ([105] : list Z). cbv beta iota. rewrite !replace1_app, (str_replace_none 105) with (s := A) by (apply NA; inset).
    replace (str_replace [105] [] (sg n)) with (sg n) by (destruct n; reflexivity).
    change (str_replace [105] [] [105]) with (@nil Z). rewrite app_nil_r.
    destruct (sg n ++ A) as [|x y] eqn:Q; [|reflexivity]. exfalso. apply app_eq_nil in Q as [_ Q]. contradiction.
Qed.

Lemma str_replace_miss sub rep c s : starts_with sub (c :: s) = false -> str_replace sub rep (c :: s) = c :: str_replace sub rep s.
Proof. intros H. unfold str_replace. cbn [str_replace_aux]. now rewrite H. Qed.
(** The text of [complex_string] and its pieces. *)
Definition ctext (a b : str) : str :=
  if leqb b (s2l "0") then a
  else if leqb a (s2l "0") then b ++ s2l "i"
  else replacer (a ++ s2l " + " ++ b ++ s2l "i") [(s2l "+ -", s2l "- "); (s2l " 1i", s2l " i")].
Lemma ctext_two na A nb B : plain A -> plain B ->
  replacer ((sg na ++ A) ++ s2l " + " ++ (sg nb ++ B) ++ s2l "i") [(s2l "+ -", s2l "- "); (s2l " 1i", s2l " i")] =
  (sg na ++ A) ++ (if nb then s2l " - " else s2l " + ") ++ (if leqb B (s2l "1") then [] else B) ++ s2l "i".
Proof.
  intros PA PB. unfold replacer. cbn [fold_left fst snd].
  assert (N1 : forall c, In c (s2l "+ ") -> ~ In c (sg na ++ A)).
  { intros c I. apply in_app3; [destruct na, I as [<-|[<-|[]]]; cbn; lia|]. apply plain_not; [exact PA|]. destruct I as [<-|[<-|[]]]; inset. }
  assert (N2 : forall c, In c (s2l "+ ") -> ~ In c B).
  { intros c I. apply plain_not; [exact PB|]. destruct I as [<-|[<-|[]]]; inset. }
  assert (E1 : str_replace (s2l "+ -") (s2l "- ") ((sg na ++ A) ++ s2l " + " ++ (sg nb ++ B) ++ s2l "i") =
    (sg na ++ A) ++ (if nb then s2l " - " else s2l " + ") ++ B ++ s2l "i").
  { change (s2l "+ -") with ([43; 32; 45] : list Z). rewrite str_replace_app by (apply N1; now left). f_equal.
    change (s2l " + ") with ([32] ++ [43; 32] : list Z). rewrite <- app_assoc, str_replace_app by (cbn; lia).
    assert (BN : str_replace [43; 32; 45] (s2l "- ") (B ++ s2l "i") = B ++ s2l "i").
    { apply str_replace_none. apply in_app3; [apply N2; now left|cbn; lia]. }
    destruct nb.
    - change (([43; 32] : list Z) ++ (sg true ++ B) ++ s2l "i") with (([43; 32; 45] : list Z) ++ (B ++ s2l "i")).
      rewrite str_replace_hit, BN. reflexivity.
    - cbn [sg app]. change (43 :: 32 :: B ++ s2l "i") with ([43; 32] ++ (B ++ s2l "i")).
      assert (S0 : exists c r, B ++ s2l "i" = c :: r /\ c <> 45).
      { destruct B as [|c B']; [exists 105, []; split; [reflexivity|lia]|]. exists c, (B' ++ s2l "i"). split; [reflexivity|].
        intros ->. revert PB. intros PB. apply (plain_not 45 _ PB); [inset|now left]. }
      destruct S0 as (c & r & S1 & S2). rewrite S1. rewrite S1 in BN.
      cbn [app]. rewrite str_replace_miss by (cbn [starts_with]; replace (45 =? c) with false by lia; now rewrite !andb_false_r).
      rewrite str_replace_miss by reflexivity. now rewrite BN. }
  rewrite E1. change (s2l " 1i") with ([32; 49; 105] : list Z). rewrite str_replace_app by (apply N1; right; now left). f_equal.
  assert (BN : str_replace [32; 49; 105] (s2l " i") (B ++ s2l "i") = B ++ s2l "i").
  { apply str_replace_none. apply in_app3; [apply N2; right; now left|cbn; lia]. }
  assert (H : forall c, c = 43 \/ c = 45 -> str_replace [32; 49; 105] (s2l " i") (32 :: c :: 32 :: B ++ s2l "i") =
    32 :: c :: 32 :: (if leqb B (s2l "1") then [] else B) ++ s2l "i").
  { intros c Hc. rewrite str_replace_miss by (destruct Hc as [->| ->]; reflexivity).
    rewrite str_replace_miss by (destruct Hc as [->| ->]; reflexivity). f_equal. f_equal.
    destruct (leqb B (s2l "1")) eqn:L.
    - apply leqb_spec in L. subst B. reflexivity.
    - rewrite str_replace_miss; [now rewrite BN|]. destruct B as [|b0 B]; [now destruct PB|]. cbn [starts_with app].
      destruct (49 =? b0) eqn:Q; [|now rewrite andb_false_r]. destruct B as [|b1 B].
      + exfalso. assert (b0 = 49) by lia. subst b0. discriminate L.
      + cbn [app starts_with]. replace (105 =? b1) with false; [reflexivity|]. symmetry. apply Z.eqb_neq. intros <-.
        apply (plain_not 105 _ PB); [inset|right; now left]. }
  destruct nb; [exact (H 45 ltac:(auto))|exact (H 43 ltac:(auto))].
Qed.
Lemma ctext_parts na A nb B : plain A -> plain B ->
  complex_parts (ctext (sg na ++ A) (sg nb ++ B)) =
  Ok (sg na ++ A, if negb (leqb (sg na ++ A) (s2l "0")) && leqb (sg nb ++ B) (s2l "-1") then s2l "-" else sg nb ++ B).
Proof.
  intros PA PB. unfold ctext. destruct (leqb (sg nb ++ B) (s2l "0")) eqn:ZB.
  { apply leqb_spec in ZB. rewrite ZB. rewrite <- (app_nil_r A). rewrite (parts_lone na A []) by auto. rewrite app_nil_r.
    change (leqb (s2l "0") (s2l "-1")) with false. now rewrite andb_false_r. }
  destruct (leqb (sg na ++ A) (s2l "0")) eqn:ZA.
  { apply leqb_spec in ZA. rewrite <- app_assoc. rewrite (parts_lone nb B (s2l "i")) by auto. cbn [negb andb]. now rewrite ZA. }
  cbn [negb andb]. rewrite ctext_two by auto.
  assert (Ia : In (sg na) [s2l ""; s2l "+"; s2l "-"]) by (destruct na; cbn; auto).
  assert (UA : unplus (sg na) = sg na) by (destruct na; reflexivity).
  assert (SQ : forall X, squash X = X -> unspaced ((sg na ++ A) ++ (if nb then s2l " - " else s2l " + ") ++ X ++ s2l "i") =
    sg na ++ A ++ (if nb then s2l "-" else s2l "+") ++ X ++ s2l "i").
  { intros X EX. rewrite unspaced_squash, !squash_app, (plain_squash A PA), EX, <- app_assoc.
    replace (squash (sg na)) with (sg na) by (destruct na; reflexivity). destruct nb; reflexivity. }
  assert (Ib : In (if nb then s2l "-" else s2l "+") [s2l "+"; s2l "-"]) by (destruct nb; cbn; auto).
  assert (Iu : is_unit (s2l "i")) by (now left).
  destruct (leqb B (s2l "1")) eqn:B1.
  - apply leqb_spec in B1. subst B.
    rewrite (parts_gen _ (sg na) A (if nb then s2l "-" else s2l "+") [] (s2l "i") (SQ [] eq_refl) PA ltac:(intros c _ []) Iu Ia Ib).
    rewrite UA. destruct nb; reflexivity.
  - rewrite (parts_ok _ (sg na) A (if nb then s2l "-" else s2l "+") B (s2l "i") (SQ B (plain_squash B PB)) PA PB Iu Ia Ib).
    rewrite UA. replace (leqb (sg nb ++ B) (s2l "-1")) with false; [destruct nb; reflexivity|].
    symmetry. apply leqb_false. intros E. destruct nb.
    + injection E as ->. discriminate B1.
    + cbn [sg app] in E. subst B. apply (plain_not 45 _ PB); [inset|now left].
Qed.

(** Every printed number loads again (perhaps as another number). *)
Lemma printed_range x m l x' m' : is_byte x -> 10 ^ 13 <= m < 10 ^ 14 -> sci_eq (lit_coef l) (lit_scale l) (printed x m) (-14) ->
  truncated14 (lit_coef l) (lit_scale l) m' (x' - 141) -> is_byte x'.
Proof.
  intros X M V T. assert (T' : truncated14 (printed x m) (-14) m' (x' - 141)) by (eapply truncated14_cong; eauto).
  destruct T' as (TM & TL & TU). unfold is_byte in *.
  assert (PU : printed x m < 10 ^ 142).
  { unfold printed. destruct (127 <=? x) eqn:E.
    - replace (10 ^ 142) with (10 ^ 14 * 10 ^ 128) by reflexivity.
      assert (10 ^ (x - 127) <= 10 ^ 128) by (apply Z.pow_le_mono_r; lia). pose proof (pow10_pos (x - 127) ltac:(lia)). nia.
    - set (p := 10 ^ (127 - x)). assert (1 <= p) by (pose proof (pow10_pos (127 - x) ltac:(lia)); unfold p; lia).
      pose proof (half_even_spec m p ltac:(lia)). pose proof (half_even_nonneg m p ltac:(lia) ltac:(lia)).
      assert (half_even m p <= m + 1) by nia. apply Z.le_lt_trans with (10 ^ 14 + 1); [lia|reflexivity]. }
  assert (PL : 1 <= printed x m).
  { pose proof (printed_nonneg x m ltac:(lia)). destruct (Z.eq_dec (printed x m) 0) as [Z0|]; [|lia]. exfalso.
    rewrite Z0 in TL. unfold sci_le in TL. pose proof (pow10_pos (x' - 141 - Z.min (x' - 141) (-14)) ltac:(lia)). nia. }
  split.
  - destruct (Z_lt_le_dec x' 0) as [L|]; [exfalso|lia]. rewrite (scale_lt _ _ _ _ (x' - 141)) in TU by lia. rewrite Z.sub_diag in TU.
    change (10 ^ 0) with 1 in TU. assert (10 ^ 14 <= 10 ^ (-14 - (x' - 141))) by (apply Z.pow_le_mono_r; lia). nia.
  - destruct (Z_lt_le_dec x' 256) as [|L]; [lia|exfalso]. rewrite (scale_le _ _ _ _ (-14)) in TL by lia. rewrite Z.sub_diag in TL.
    change (10 ^ 0) with 1 in TL. assert (10 ^ 129 <= 10 ^ (x' - 141 - -14)) by (apply Z.pow_le_mono_r; lia).
    assert (10 ^ 142 = 10 ^ 13 * 10 ^ 129) by reflexivity. nia.
Qed.

Lemma part_text low neg x m d : stored_real low neg x m d ->
  exists n A, plain A /\ real_string (Buf true d) = Ok (sg n ++ A) /\
  exists n' x' m', real_load (sg n ++ A) (Buf true (zeros 9)) = (stored 0 n' x' m', oret tt) /\ is_byte x' /\ 0 <= m' < 10 ^ 14 /\
    ((n' = neg /\ x' = x /\ m' = m) <-> short x m).
Proof.
  intros (HL & P & X & M). assert (B0 : is_byte 0) by (unfold is_byte; lia).
  assert (BL : is_byte low) by (unfold is_byte; lia).
  destruct M as [M|(-> & -> & ->)].
  - apply payload_stored in P; [|lia|lia].
    assert (PB : Buf true d = stored low neg x m) by (rewrite P; reflexivity). rewrite PB.
    destruct (real_string_stored low neg x m BL X ltac:(lia)) as (l & W & N & S & Sq & V & SG & NI & NX).
    destruct (lit_signed l neg W NX NI SG) as (A & PA & TA).
    exists neg, A. split; [exact PA|]. change (lit_text l = sg neg ++ A) in TA. rewrite <- TA. split; [exact S|].
    destruct (real_reload low neg x m 0 0 (zeros 7) BL X M B0 eq_refl) as (s & S' & R). rewrite S in S'. injection S' as <-.
    destruct (real_load_spec l (lit_text l) 0 0 (zeros 7) W Sq eq_refl B0) as [R0 R1].
    change (0 :: 0 :: zeros 7) with (zeros 9) in *.
    destruct (Z.eq_dec (lit_coef l) 0) as [Z0|NZ].
    + specialize (R0 Z0). exists (lit_neg l), 128, 0. split; [exact R0|]. split; [unfold is_byte; lia|]. split; [lia|].
      split; [intros (_ & _ & E); lia|]. intros Sh. apply R in Sh. rewrite R0 in Sh. apply (f_equal fst) in Sh. cbn [fst] in Sh.
      apply stored_inj in Sh as (E1 & E2 & _); lia.
    + destruct (R1 NZ) as (m' & x' & T & Q). pose proof (printed_range x m l x' m' X M V T) as BX.
      replace (is_byteb x') with true in Q by (symmetry; now apply is_byteb_spec).
      assert (TM : 10 ^ 13 <= m' < 10 ^ 14) by apply T.
      exists (lit_neg l), x', m'. split; [exact Q|]. split; [exact BX|]. split; [lia|]. unfold short. rewrite <- R, Q. split.
      * intros (-> & -> & ->). reflexivity.
      * intros E. apply (f_equal fst) in E. cbn [fst] in E. apply stored_inj in E as (E1 & E2 & E3); [|lia|lia]. auto.
  - apply payload_stored in P; [|lia|lia]. exists false, (s2l "0"). split.
    { split; [discriminate|]. intros c [<-|[]]. split; intros J; vm_compute in J; lia. }
    assert (PB : Buf true d = stored low false 128 0) by (rewrite P; reflexivity). rewrite PB. split; [now apply real_string_zero|].
    exists false, 128, 0. split; [vm_compute; reflexivity|]. split; [exact X|]. split; [lia|]. split; [|auto]. intros _ H. lia.
Qed.
Lemma retag_stored n x m : retag 12 (b_data (stored 0 n x m)) = b_data (stored 12 n x m).
Proof. destruct n; reflexivity. Qed.

Lemma stored_fields c n x m : is_byte c -> is_byte x -> 0 <= m < 10 ^ 14 -> length (b_data (stored c n x m)) = 9%nat /\ wf_bytes (b_data (stored c n x m)).
Proof.
  intros C X M. unfold stored. cbn [b_data]. split.
  - cbn [length]. now rewrite mant7.
  - constructor; [unfold is_byte in *; destruct n; lia|]. constructor; [exact X|]. unfold mant. apply wf_rev, bcd_le_wf.
Qed.
Lemma payload12 n x m n' x' m' : 0 <= m < 10 ^ 14 -> 0 <= m' < 10 ^ 14 ->
  (payload 12 n x m (b_data (stored 12 n' x' m')) <-> n' = n /\ x' = x /\ m' = m).
Proof.
  intros M M'. split.
  - intros P. apply payload_stored in P; [|lia|lia]. assert (E : stored 12 n' x' m' = stored 12 n x m) by (unfold stored in *; cbn [b_data] in P; now rewrite P).
    apply stored_inj in E as (-> & -> & -> & _); auto.
  - intros (-> & -> & ->). change 12 with (12 mod 128) at 1. now apply stored_payload.
Qed.
Lemma complex_text_roundtrip fp e t0 D la na xa ma da lb nb xb mb db :
  e_type e = [t0] -> is_byte t0 -> e_data e = Buf true D -> length D = 18%nat -> wf_bytes D ->
  nth 0 D 0 mod 64 = 12 -> nth 9 D 0 mod 64 = 12 ->
  stored_real la na xa ma da -> stored_real lb nb xb mb db ->
  exists s e' da' db', complex_string (Buf true da) (Buf true db) = Ok s /\
    complex_load fp s e = oret e' /\ e_cls e' = KComplex /\ e_data e' = Buf true (da' ++ db') /\
    length da' = 9%nat /\ length db' = 9%nat /\
    (payload 12 na xa ma da' /\ payload 12 nb xb mb db' <->
     short xa ma /\ short xb mb /\ ~ (ma <> 0 /\ nb = true /\ xb = 128 /\ mb = 10 ^ 13)).
Proof.
  intros ET B0 ED LD WD T1 T2 SA SB.
  assert (MA : 0 <= ma < 10 ^ 14) by (destruct SA as (_ & _ & _ & [?|(-> & _)]); lia).
  assert (MB : 0 <= mb < 10 ^ 14) by (destruct SB as (_ & _ & _ & [?|(-> & _)]); lia).
  assert (Z0 : is_byte 0) by (unfold is_byte; lia). assert (Z12 : is_byte 12) by (unfold is_byte; lia).
  destruct (part_text _ _ _ _ _ SA) as (ga & A & PA & SRA & na' & xa' & ma' & LA & XA & MA' & IA).
  destruct (part_text _ _ _ _ _ SB) as (gb & B & PB & SRB & nb' & xb' & mb' & LB & XB & MB' & IB).
  pose proof (ctext_parts ga A gb B PA PB) as CP.
  set (a := sg ga ++ A) in *. set (b := sg gb ++ B) in *.
  assert (CS : complex_string (Buf true da) (Buf true db) = Ok (ctext a b)).
  { unfold complex_string. rewrite SRA, SRB. cbn [rbind]. unfold ctext. destruct (leqb b (s2l "0")); [reflexivity|]. now destruct (leqb a (s2l "0")). }
  set (q := if negb (leqb a (s2l "0")) && leqb b (s2l "-1") then s2l "-" else b) in *.
  assert (LQ : exists n x m, real_load q (Buf true (zeros 9)) = (stored 0 n x m, oret tt) /\ is_byte x /\ 0 <= m < 10 ^ 14 /\
             (n = nb /\ x = xb /\ m = mb <-> short xb mb /\ ~ (a <> s2l "0" /\ b = s2l "-1"))).
  { unfold q. destruct (leqb a (s2l "0")) eqn:QA; cbn [negb andb].
    - apply leqb_spec in QA. exists nb', xb', mb'. split; [exact LB|]. split; [exact XB|]. split; [exact MB'|]. rewrite IB. tauto.
    - apply leqb_false in QA. destruct (leqb b (s2l "-1")) eqn:QB.
      + apply leqb_spec in QB. exists true, 128, 0. split; [vm_compute; reflexivity|]. split; [unfold is_byte; lia|]. split; [lia|].
        split; [|tauto]. intros (<- & <- & <-). exfalso. rewrite QB in LB.
        assert (LB' : real_load (s2l "-1") (Buf true (zeros 9)) = (stored 0 true 128 (10 ^ 13), oret tt)) by (vm_compute; reflexivity).
        rewrite LB' in LB. apply (f_equal fst) in LB. cbn [fst] in LB. apply stored_inj in LB as (_ & E & _); [|lia|lia].
        assert (ES : short 128 0) by (unfold short; lia). apply IB in ES. lia.
      + apply leqb_false in QB. exists nb', xb', mb'. split; [exact LB|]. split; [exact XB|]. split; [exact MB'|]. rewrite IB. tauto. }
  destruct LQ as (n & x & m & LQ & XQ & MQ & IQ).
  destruct (stored_fields 0 na' xa' ma' Z0 XA MA') as [L1 W1]. destruct (stored_fields 0 n x m Z0 XQ MQ) as [L2 W2].
  assert (BA : real_load a (Buf true (zeros 9)) = (Buf true (b_data (stored 0 na' xa' ma')), oret tt)) by exact LA.
  assert (BQ : real_load q (Buf true (zeros 9)) = (Buf true (b_data (stored 0 n x m)), oret tt)) by exact LQ.
  pose proof (complex_load_ok fp (ctext a b) e t0 D a q _ _ CP ET B0 ED LD WD T1 T2 BA L1 W1 BQ L2 W2) as CL.
  eexists _, _, _, _. split; [exact CS|]. split; [exact CL|]. split; [reflexivity|]. split; [reflexivity|].
  split; [now rewrite retag_length|]. split; [now rewrite retag_length|].
  rewrite !retag_stored. rewrite (payload12 na xa ma) by auto. rewrite (payload12 nb xb mb) by auto. rewrite IA, IQ.
  assert (KEY : short xa ma -> short xb mb -> (a <> s2l "0" /\ b = s2l "-1" <-> ma <> 0 /\ nb = true /\ xb = 128 /\ mb = 10 ^ 13)).
  { intros HA HB. apply IA in HA as (-> & -> & ->). apply IB in HB as (-> & -> & ->). split.
    - intros [NA EB]. split.
      + intros ->. destruct SA as (HL & P & X & [?|(_ & -> & ->)]); [lia|]. apply payload_stored in P; [|lia|lia].
        assert (PBu : Buf true da = stored la false 128 0) by (rewrite P; reflexivity). rewrite PBu in SRA.
        rewrite real_string_zero in SRA; [|unfold is_byte; lia|exact X]. injection SRA as E. now apply NA.
      + rewrite EB in LB. assert (LB' : real_load (s2l "-1") (Buf true (zeros 9)) = (stored 0 true 128 (10 ^ 13), oret tt)) by (vm_compute; reflexivity).
        rewrite LB' in LB. apply (f_equal fst) in LB. cbn [fst] in LB. apply stored_inj in LB as (E1 & E2 & E3 & _); [|lia|lia]. auto.
    - intros (NA & -> & -> & ->). split.
      + intros EA. rewrite EA in LA. assert (LA' : real_load (s2l "0") (Buf true (zeros 9)) = (stored 0 false 128 0, oret tt)) by (vm_compute; reflexivity).
        rewrite LA' in LA. apply (f_equal fst) in LA. cbn [fst] in LA. apply stored_inj in LA as (_ & E & _); lia.
      + destruct SB as (HL & P & X & _). apply payload_stored in P; [|lia|lia].
        assert (PBu : Buf true db = stored lb true 128 (10 ^ 13)) by (rewrite P; reflexivity). rewrite PBu in SRB.
        assert (R1 : real_string (stored lb true 128 (10 ^ 13)) = Ok (s2l "-1")).
        { unfold real_string. rewrite real_decimal_stored by (unfold is_byte; lia). vm_compute. reflexivity. }
        rewrite R1 in SRB. now injection SRB. }
  split.
  - intros (HA & HB & N). split; [exact HA|]. split; [exact HB|]. rewrite <- (KEY HA HB). exact N.
  - intros (HA & HB & N). split; [exact HA|]. split; [exact HB|]. rewrite (KEY HA HB). exact N.
Qed.
