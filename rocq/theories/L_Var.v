(** Lemmas about entries and var files. *)
From Verif Require Import L_Base M_Data M_Flags M_Models M_Class M_Var S_Data L_Data L_Flags S_Var L_Models.

(** ** Quiet computations: no warning about the file structure *)
Notation quietw := no_structural.
Definition quiet {A} (m : out A) : Prop := quietw (fst m).
Lemma quietw_nil : quietw [].
Proof. intros x []. Qed.
Lemma quietw_app a b : quietw a -> quietw b -> quietw (a ++ b).
Proof. intros Ha Hb x H. apply in_app_or in H as [H|H]; auto. Qed.
Lemma quiet_ret {A} (a : A) : quiet (oret a).
Proof. apply quietw_nil. Qed.
Lemma quiet_err {A} e : @quiet A (oerr e).
Proof. apply quietw_nil. Qed.
Lemma quiet_lift {A} (r : result A) : quiet (olift r).
Proof. apply quietw_nil. Qed.
Lemma quiet_bind {A B} (m : out A) (f : A -> out B) :
  quiet m -> (forall a, quiet (f a)) -> quiet (obind m f).
Proof.
  intros H1 H2. destruct m as [w [a|e]]; cbn [obind]; auto.
  specialize (H2 a). destruct (f a) as [w' r]. apply quietw_app; auto.
Qed.
Lemma quiet_warn w : structural w = false -> quiet (owarn w).
Proof. intros H x [<-|[]]. auto. Qed.
Lemma quiet_warn_if b w : structural w = false -> quiet (owarn_if b w).
Proof. intros H. destruct b; [now apply quiet_warn | apply quietw_nil]. Qed.
Lemma quiet_bits a b v c : quiet (bits_set a b v c).
Proof.
  unfold bits_set. apply quiet_bind; [apply quiet_lift|]. intros p x H. cbn [fst] in H.
  apply in_map_iff in H as (? & <- & _). reflexivity.
Qed.
Lemma quiet_fit n v : quiet (fit_section n v).
Proof.
  unfold fit_section. destruct n; [|apply quiet_ret]. apply quiet_bind; [now apply quiet_warn_if|]. intros; apply quiet_ret.
Qed.
Lemma quiet_section n c : quiet c -> quiet (section_set_raw n c).
Proof. intros. apply quiet_bind; auto. intros; apply quiet_fit. Qed.
Lemma quiet_view t v c b : quiet c -> quiet (view_set t v c b).
Proof. intros. apply quiet_bind; [now apply quiet_section|]. intros. destruct (b_mut b); [apply quiet_ret|apply quiet_err]. Qed.
Ltac quiet := repeat first
  [ apply quiet_bits | apply quiet_section | apply quiet_view | apply quiet_fit
  | apply quiet_bind; [|intros ?] | apply quiet_ret | apply quiet_err | apply quiet_lift
  | apply quiet_warn; reflexivity | apply quiet_warn_if; reflexivity
  | match goal with |- quiet (match ?x with _ => _ end) => destruct x end
  | match goal with |- quiet (if ?x then _ else _) => destruct x end ].
Lemma quiet_set_type e v : quiet (set_type_id e v).
Proof. unfold set_type_id. quiet. Qed.
Lemma quiet_coerce_own ps e : quiet (coerce_own ps e).
Proof.
  unfold coerce_own, coerce_program, coerce_graphed, coerce_list, coerce_complex, coerce_picture,
    coerce_gdb, coerce_mono_gdb, coerce_gdb, set_type_id. quiet.
Qed.
Lemma quiet_coerce ps e : quiet (coerce ps e).
Proof.
  assert (B : forall e, quiet (coerce_base ps e)).
  { intros x. unfold coerce_base. apply quiet_bind; [apply quiet_lift|]. intros t.
    destruct (get_type t); [apply quiet_coerce_own|]. apply quiet_bind; [|intros; apply quiet_ret].
    destruct (t =? 255); now apply quiet_warn. }
  unfold coerce. destruct (e_cls e); auto using quiet_coerce_own;
    (apply quiet_bind; [apply quiet_lift|]; intros; apply quiet_bind; [apply quiet_set_type|]; auto).
Qed.

(** ** Bits of a whole byte *)
Lemma bits_set_full v (d : bytes) c : d = [c] -> is_byte c -> exists ws, bits_set 0 8 v (Some d) = (ws, Ok [v mod 256]).
Proof.
  intros -> H. destruct (bits_set_spec 0 8 v c) as (ws & r & E & (B & F) & _); [lia|auto|].
  exists ws. etransitivity; [exact E|]. do 3 f_equal. apply byte_ext; auto.
  - unfold is_byte. apply Z.mod_pos_bound. lia.
  - intros i Hi. rewrite F by auto. replace (Nat.leb 0 i && Nat.ltb i 8) with true
      by (symmetry; apply andb_true_iff; split; [reflexivity|now apply Nat.ltb_lt]).
    rewrite Nat.sub_0_r. change 256 with (2 ^ 8). rewrite Z.mod_pow2_bits_low; auto. lia.
Qed.
Lemma set_type_same e t : e_type e = [t] -> is_byte t -> exists w, set_type_id e t = (w, Ok e).
Proof.
  intros E B. unfold set_type_id. destruct (bits_set_full t _ t E B) as (ws & F). rewrite F.
  unfold section_set_raw. cbn [obind fit_section length Nat.ltb Nat.leb owarn_if].
  rewrite Z.mod_small by exact B. eexists. unfold with_type, oret. cbn.
  destruct e; cbn in *; subst; reflexivity.
Qed.
Lemma type_id_byte e t : e_type e = [t] -> is_byte t -> type_id e = Ok t.
Proof. intros E B. unfold type_id. now rewrite E, bits_get_byte. Qed.

Lemma same_raw_refl e : same_raw e e.
Proof. repeat split. Qed.
Lemma same_raw_cls e c : same_raw (with_cls e c) e.
Proof. repeat split. Qed.
Lemma same_raw_trans a b c : same_raw a b -> same_raw b c -> same_raw a c.
Proof.
  intros (?&?&?&?&?&?) (?&?&?&?&?&?). unfold same_raw. repeat split; congruence.
Qed.

(** Reading six bits of a byte of the payload. *)
Lemma get_bits_at_nth i buf b : nth_error (b_data buf) i = Some b ->
  get_bits_at (Z.of_nat i) 0 6 buf = Ok (b mod 64).
Proof.
  intros H. unfold get_bits_at, view_get. cbn [v_start v_stop].
  assert (L : (i < length (b_data buf))%nat) by (apply nth_error_Some; congruence).
  rewrite py_slice_nn by (unfold zlen; lia).
  replace (Z.to_nat (Z.of_nat i + 1 - Z.of_nat i)) with 1%nat by lia. rewrite Nat2Z.id.
  assert (S : exists r, skipn i (b_data buf) = b :: r).
  { pose proof (nth_error_skipn (b_data buf) i 0) as Q. rewrite Nat.add_0_r, H in Q.
    destruct (skipn i (b_data buf)); [discriminate|]. injection Q as ->. eauto. }
  destruct S as [r ->]. cbn [firstn]. rewrite bits_get_value by lia.
  change (2 ^ Z.of_nat 0) with 1. change (2 ^ Z.of_nat (6 - 0)) with 64. now rewrite Z.div_1_r.
Qed.

Lemma coerce_complex_same e t : e_type e = [t] -> is_byte t ->
  (exists b, nth_error (b_data (e_data e)) 9 = Some b /\ b mod 64 = t) ->
  exists w e', coerce_complex e = (w, Ok e') /\ same_raw e' e.
Proof.
  intros E B (b & N & M). unfold coerce_complex.
  change 9 with (Z.of_nat 9). rewrite (get_bits_at_nth _ _ _ N), M. cbn [olift obind].
  destruct (set_type_same e t E B) as (w & S). rewrite S. cbn [obind].
  rewrite (type_id_byte e t E B). cbn [olift obind].
  destruct (get_type t); cbn [obind owarn oret]; (do 2 eexists; split; [reflexivity|]; apply same_raw_refl || apply same_raw_cls).
Qed.

Lemma coerce_list_same e : data_view (e_cls e) = (View (Some 2) None, DBytes) ->
  3 <= zlen (b_data (e_data e)) -> exists w e', coerce_list e = (w, Ok e') /\ same_raw e' e.
Proof.
  intros V L. unfold coerce_list, data. rewrite V. cbn [fst]. unfold view_get. cbn [v_start v_stop].
  rewrite py_slice_from by lia. change (Z.to_nat 2) with 2%nat.
  destruct (b_data (e_data e)) as [|a [|b [|c r]]]; unfold zlen in L; simpl in L; try lia. cbn [skipn].
  destruct (get_type (Z.land c 31)) as [k|]; [destruct (issubclass k KRealEntry); [|destruct (issubclass k KComplexEntry)]|];
    cbn [obind owarn oret]; (do 2 eexists; split; [reflexivity|]; apply same_raw_refl || apply same_raw_cls).
Qed.

Ltac done_same := cbn [obind owarn oret]; do 2 eexists; split; [reflexivity|]; repeat split.

Lemma coerce_own_same ps e t : e_type e = [t] -> is_byte t ->
  consistent_for (e_cls e) t (b_data (e_data e)) -> type_id_of (e_cls e) <> None ->
  exists w e', coerce_own ps e = (w, Ok e') /\ same_raw e' e.
Proof.
  intros E B C T. unfold coerce_own.
  destruct (e_cls e) eqn:K; try (exfalso; apply T; reflexivity);
    cbn in C |- *; try contradiction;
    try (apply coerce_complex_same with (t := t); assumption);
    try (apply coerce_list_same; [rewrite K; reflexivity|assumption]);
    try (unfold coerce_picture; repeat match goal with |- context [if ?x then _ else _] => destruct x end; done_same);
    try (unfold coerce_mono_gdb, coerce_gdb; destruct (get_color_data (e_cls e) (calc_data e));
         repeat match goal with |- context [if ?x then _ else _] => destruct x end; done_same);
    try (unfold coerce_gdb; repeat match goal with |- context [if ?x then _ else _] => destruct x end; done_same);
    try (unfold coerce_program; rewrite K; cbn [is_tokenized negb]; rewrite (type_id_byte e t E B); cbn [olift obind];
         repeat match goal with |- context [if ?x then _ else _] => destruct x end; done_same);
    try (unfold coerce_graphed; rewrite (type_id_byte e t E B); cbn [olift obind];
         destruct (t =? 35) eqn:Q; [apply Z.eqb_eq in Q; contradiction|]; done_same);
    try done_same.
Qed.

Lemma coerce_base_same ps e t : e_type e = [t] -> is_byte t -> consistent t (b_data (e_data e)) ->
  exists w e', coerce_base ps e = (w, Ok e') /\ same_raw e' e.
Proof.
  intros E B (N & L & C). unfold coerce_base. rewrite (type_id_byte e t E B). cbn [olift obind].
  destruct (get_type t) as [c|] eqn:G.
  - assert (P : consistent_for c t (b_data (e_data e)) /\ type_id_of c <> None).
    { unfold get_type, registry, assoc_cls in G.
      repeat match type of G with context [if ?x =? t then _ else _] =>
        let Q := fresh in destruct (x =? t) eqn:Q; [apply Z.eqb_eq in Q; subst t; injection G as <-|] end;
      try discriminate G;
      (split; [cbn; try exact I; try (apply C; unfold complex_type; simpl; tauto); try (apply L; unfold list_type; simpl; tauto); try exact N|discriminate]). }
    destruct P as [P1 P2].
    destruct (coerce_own_same ps (with_cls e c) t E B P1 P2) as (w & e' & H & S).
    rewrite H. destruct w; (do 2 eexists; split; [reflexivity|]; exact S).
  - destruct (t =? 255); done_same.
Qed.

Lemma coerce_same ps e t : e_type e = [t] -> is_byte t -> consistent_for (e_cls e) t (b_data (e_data e)) ->
  exists w e', coerce ps e = (w, Ok e') /\ same_raw e' e.
Proof.
  intros E B C.
  assert (Own : type_id_of (e_cls e) <> None -> exists w e', coerce_own ps e = (w, Ok e') /\ same_raw e' e)
    by (intros; now apply coerce_own_same with (t := t)).
  assert (Rl : consistent t (b_data (e_data e)) /\ (exists b, nth_error (b_data (e_data e)) 0 = Some b /\ b mod 64 = t) ->
    exists w e', (do t := olift (get_bits_at 0 0 6 (e_data e)) in do e := set_type_id e t in coerce_base ps e) = (w, Ok e') /\ same_raw e' e).
  { intros (C1 & b & N & M). change 0 with (Z.of_nat 0) at 1. rewrite (get_bits_at_nth _ _ _ N), M. cbn [olift obind].
    destruct (set_type_same e t E B) as (w & S). rewrite S. cbn [obind].
    destruct (coerce_base_same ps e t E B C1) as (w' & e' & H & R). rewrite H. eauto. }
  unfold coerce. destruct (e_cls e) eqn:K; cbn in C;
    try (apply Own; discriminate);
    try (now apply coerce_base_same with (t := t));
    try (apply Rl; exact C).
  - (* ComplexEntry *) unfold coerce_own. rewrite K. cbn. now apply coerce_complex_same with (t := t).
  - (* TIList *) unfold coerce_own. rewrite K. cbn. apply coerce_list_same; [rewrite K; reflexivity|exact C].
  - (* PictureEntry *) unfold coerce_own. rewrite K. cbn. unfold coerce_picture.
    repeat match goal with |- context [if ?x then _ else _] => destruct x end; done_same.
Qed.

(** Coercion never touches meta length, name, version, archive byte or the
    length of the data. *)
Definition kept (e e' : entry) : Prop :=
  e_meta e' = e_meta e /\ e_name e' = e_name e /\ e_version e' = e_version e /\ e_archived e' = e_archived e.
Lemma kept_refl e : kept e e. Proof. repeat split. Qed.
Lemma kept_trans a b c : kept a b -> kept b c -> kept a c.
Proof. unfold kept. intros (?&?&?&?) (?&?&?&?). repeat split; congruence. Qed.
Lemma set_type_kept e v w e' : set_type_id e v = (w, Ok e') -> kept e e'.
Proof.
  intros H. unfold set_type_id in H. apply obind_ok in H as (? & b & ? & _ & H & _). injection H as _ <-. repeat split.
Qed.
Ltac inv_ok :=
  repeat match goal with
  | H : obind _ _ = (_, Ok _) |- _ => apply obind_ok in H as (? & ? & ? & ? & H & _)
  | H : oret _ = (_, Ok _) |- _ => injection H as ? ?; subst
  | H : oerr _ = (_, Ok _) |- _ => discriminate H
  | H : owarn _ = (_, Ok _) |- _ => clear H
  | H : olift _ = (_, Ok _) |- _ => injection H as ? ?
  | H : (if ?b then _ else _) = (_, Ok _) |- _ => destruct b
  | H : match ?x with [] => _ | _ :: _ => _ end = (_, Ok _) |- _ => destruct x
  | H : match ?x with Some _ => _ | None => _ end = (_, Ok _) |- _ => destruct x
  end.
Lemma coerce_own_kept ps e w e' : coerce_own ps e = (w, Ok e') -> kept e e'.
Proof.
  unfold coerce_own, coerce_program, coerce_graphed, coerce_list, coerce_complex, coerce_picture, coerce_mono_gdb, coerce_gdb.
  intros H. inv_ok; try apply kept_refl; try (now repeat split);
  try (match goal with S : set_type_id _ _ = _ |- _ => apply set_type_kept in S; destruct S as (?&?&?&?); repeat split; cbn in *; congruence end).
Qed.
Lemma coerce_kept ps e w e' : coerce ps e = (w, Ok e') -> kept e e'.
Proof.
  assert (Bs : forall e w e', coerce_base ps e = (w, Ok e') -> kept e e').
  { intros x u x' H. unfold coerce_base in H. apply obind_ok in H as (? & t & ? & _ & H & _).
    destruct (get_type t).
    - apply coerce_own_kept in H. destruct H as (?&?&?&?). repeat split; assumption.
    - inv_ok; apply kept_refl. }
  assert (Rl : forall w, (do t := olift (get_bits_at 0 0 6 (e_data e)) in do e := set_type_id e t in coerce_base ps e) = (w, Ok e') -> kept e e').
  { intros u H. apply obind_ok in H as (? & t & ? & _ & H & _). apply obind_ok in H as (? & y & ? & S & H & _).
    apply set_type_kept in S. apply Bs in H. eapply kept_trans; eauto. }
  unfold coerce. destruct (e_cls e); eauto using coerce_own_kept.
Qed.

(** ** Loading an entry image *)
Lemma le16_le_bytes n : 0 <= n < 65536 -> le16 n = le_bytes 2 n.
Proof. intros. unfold le16. cbn [le_bytes]. do 2 f_equal. lia. Qed.
Lemma le_int_le16 n : 0 <= n < 65536 -> le_int (le16 n) = n.
Proof. intros. rewrite le16_le_bytes by auto. apply le_int_le_bytes. change (256 ^ Z.of_nat 2) with 65536. lia. Qed.
Lemma le16_inj a b : le16 a = le16 b -> a = b.
Proof. unfold le16. intros H. injection H as H1 H2. lia. Qed.
Lemma version_byte e v : e_version e = [v] -> is_byte v -> version e = Ok v.
Proof. intros E B. unfold version. now rewrite E, bits_get_byte. Qed.

(** What [entry_load] does after the data have been read. *)
Definition finish ps (e : entry) : out entry :=
  do e := coerce ps e in
  do v := olift (version e) in
  do _ := owarn_if (negb (leqb (versions (e_cls e)) [0]) && negb (memb v (versions (e_cls e)))) WVersion in
  do _ := owarn_if ((meta_length e =? 11) && flash_only (e_cls e)) WFlashOnly in
  oret e.

Lemma finish_same ps e t v : e_type e = [t] -> is_byte t -> e_version e = [v] -> is_byte v ->
  consistent_for (e_cls e) t (b_data (e_data e)) ->
  exists w e', finish ps e = (w, Ok e') /\ same_raw e' e /\ quietw w.
Proof.
  intros E B V Bv C. unfold finish. pose proof (quiet_coerce ps e) as Q.
  destruct (coerce_same ps e t E B C) as (w & e' & H & S). rewrite H in Q |- *. cbn [obind fst] in *.
  assert (V' : e_version e' = [v]) by (destruct S as (?&?&?&->&?&?); auto).
  rewrite (version_byte e' v V' Bv). cbn [olift obind owarn_if oret].
  do 2 eexists. split; [reflexivity|]. split; auto. unfold quiet in Q. cbn in Q.
  apply quietw_app; auto. cbn. rewrite app_nil_r. apply quietw_app.
  - destruct (_ && _); [intros x [<-|[]]; reflexivity|apply quietw_nil].
  - destruct (_ && _); [intros x [<-|[]]; reflexivity|apply quietw_nil].
Qed.
Lemma finish_kept ps e w e' : finish ps e = (w, Ok e') -> kept e e'.
Proof.
  intros H. unfold finish in H. apply obind_ok in H as (? & x & ? & C & H & _).
  apply obind_ok in H as (? & ? & ? & _ & H & _). apply obind_ok in H as (? & ? & ? & _ & H & _).
  apply obind_ok in H as (? & ? & ? & _ & H & _). injection H as _ <-. now apply coerce_kept in C.
Qed.

Lemma firstn_app_zlen (p r : bytes) n : n = zlen p -> firstn (Z.to_nat n) (p ++ r) = p.
Proof. intros ->. rewrite to_nat_zlen. now apply firstn_app_exact. Qed.
Lemma list8 {A} (l : list A) : length l = 8%nat ->
  exists a b c d e f g h, l = [a; b; c; d; e; f; g; h].
Proof.
  intros H. do 8 (destruct l as [|? l]; [discriminate H|]). destruct l; [|discriminate H]. repeat eexists.
Qed.

Definition flash_warn (a : Z) : list warning := if (a =? 0) || (a =? 128) then [] else [WArchived].
Lemma archived_warn a : owarn_if (negb (infix [a] [0; 128])) WArchived = (flash_warn a, Ok tt).
Proof.
  unfold flash_warn, owarn_if. cbn [infix starts_with]. rewrite !andb_true_r, !orb_false_r.
  destruct (a =? 0); destruct (a =? 128); reflexivity.
Qed.

Lemma obind_lift {A B} (a : A) (f : A -> out B) : obind (olift (Ok a)) f = f a.
Proof. apply obind_oret. Qed.
Lemma obind_ext {A B} (m : out A) (f g : A -> out B) : (forall a, f a = g a) -> obind m f = obind m g.
Proof. intros H. destruct m as [w [a|e]]; cbn [obind]; auto. now rewrite H. Qed.
Lemma obind_assoc {A B C} (m : out A) (f : A -> out B) (g : B -> out C) :
  obind (obind m f) g = obind m (fun a => obind (f a) g).
Proof.
  destruct m as [w [a|e]]; cbn [obind]; auto. destruct (f a) as [w2 [b|e2]]; cbn [obind]; auto.
  destruct (g b) as [w3 r]. now rewrite app_assoc.
Qed.
Lemma obind_warn_false {B} w (f : unit -> out B) : obind (owarn_if false w) f = f tt.
Proof. unfold owarn_if. cbn [obind]. now destruct (f tt). Qed.

Lemma load_image_13 ps c t name v a payload rest :
  is_byte t -> length name = 8%nat -> zlen payload < 65536 -> [v; a] <> le16 (zlen payload) ->
  entry_load ps c (entry_image 13 t name [v; a] payload ++ rest) =
  do _ := type_check c t in do _ := (flash_warn a, Ok tt) in
  finish ps (Entry c [13; 0] [t] name [v] [a] (Buf true payload)).
Proof.
  intros Bt Hn Hp Ha. pose proof (zlen_nonneg payload) as Hp0.
  destruct (list8 name Hn) as (n1&n2&n3&n4&n5&n6&n7&n8&->).
  unfold entry_image. assert (Ln : le_int (le16 (zlen payload)) = zlen payload) by (apply le_int_le16; lia).
  unfold le16 in *. set (x := zlen payload mod 256) in *. set (y := zlen payload / 256) in *.
  change (13 mod 256) with 13. change (13 / 256) with 0. cbn [app].
  unfold entry_load. rewrite ljust_id by (cbn [length]; lia). cbn [rd firstn skipn].
  rewrite (type_id_byte _ t) by (cbn; auto). rewrite obind_lift. apply obind_ext. intros _.
  change (meta_length _ =? 13) with true. cbv iota beta. rewrite obind_oret.
  apply leqb_false in Ha. change ([v] ++ [a]) with [v; a]. rewrite Ha. rewrite andb_false_r.
  rewrite archived_warn, obind_assoc. apply obind_ext. intros _.
  rewrite leqb_refl. cbn [negb]. rewrite obind_warn_false, obind_oret.
  rewrite Ln, firstn_app_zlen by reflexivity.
  unfold calc_data_length, calc_data. cbn [with_data e_data b_data]. rewrite Z.eqb_refl. cbn [negb].
  rewrite obind_warn_false. reflexivity.
Qed.

Lemma load_image_13_ambiguous ps c t name v a payload rest :
  is_byte t -> length name = 8%nat -> zlen payload < 65536 -> [v; a] = le16 (zlen payload) ->
  entry_load ps c (entry_image 13 t name [v; a] payload ++ rest) =
  do _ := type_check c t in
  do _ := (WNoFlash :: WMetaLost :: (if flash_only c then [WFlashOnly] else []), Ok tt) in
  finish ps (Entry c [11; 0] [t] name [0] [0] (Buf true (firstn (length payload) (le16 (zlen payload) ++ payload ++ rest)))).
Proof.
  intros Bt Hn Hp Ha. pose proof (zlen_nonneg payload) as Hp0.
  destruct (list8 name Hn) as (n1&n2&n3&n4&n5&n6&n7&n8&->).
  unfold entry_image. assert (Ln : le_int (le16 (zlen payload)) = zlen payload) by (apply le_int_le16; lia).
  unfold le16 in *. set (x := zlen payload mod 256) in *. set (y := zlen payload / 256) in *.
  change (13 mod 256) with 13. change (13 / 256) with 0. cbn [app].
  unfold entry_load. rewrite ljust_id by (cbn [length]; lia). cbn [rd firstn skipn].
  rewrite (type_id_byte _ t) by (cbn; auto). rewrite obind_lift. apply obind_ext. intros _.
  change (meta_length _ =? 13) with true. cbv iota beta. rewrite obind_oret.
  apply leqb_spec in Ha. change ([v] ++ [a]) with [v; a]. rewrite Ha.
  change (meta_length _ =? 13) with true. cbn [andb].
  unfold set_meta_length, meta_convert. cbn [with_name with_version with_archived e_cls e_meta].
  change (11 =? 11) with true. cbv iota. change (leqb [13; 0] [13; 0]) with true.
  change (section_set_raw (Some 2%nat) (olift (integer_set 11 (Some 2%nat)))) with (oret [11; 0]).
  rewrite obind_assoc.
  transitivity (obind (owarn WNoFlash) (fun _ => obind (owarn_if true WMetaLost) (fun _ => obind (owarn_if (flash_only c) WFlashOnly) (fun _ =>
    finish ps (Entry c [11; 0] [t] [n1;n2;n3;n4;n5;n6;n7;n8] [0] [0] (Buf true (firstn (length payload) (x :: y :: payload ++ rest)))))))).
  2:{ destruct (finish _ _) as [w r]. now destruct (flash_only c). }
  apply obind_ext. intros _. rewrite !obind_assoc. apply obind_ext. intros _. cbv beta.
  apply obind_ext. intros _. rewrite !obind_oret. rewrite Ln, to_nat_zlen.
  unfold calc_data_length, calc_data. cbn [with_data e_data b_data].
  assert (E : zlen (firstn (length payload) (x :: y :: payload ++ rest)) = zlen payload).
  { unfold zlen. rewrite firstn_length. cbn [length]. rewrite app_length. lia. }
  rewrite E, Z.eqb_refl. cbn [negb]. rewrite obind_warn_false. reflexivity.
Qed.

Lemma load_image_11 ps c t name payload rest :
  is_byte t -> length name = 8%nat -> zlen payload < 65536 ->
  entry_load ps c (entry_image 11 t name [] payload ++ rest) =
  do _ := type_check c t in
  finish ps (Entry c [11; 0] [t] name [0] [0] (Buf true payload)).
Proof.
  intros Bt Hn Hp. pose proof (zlen_nonneg payload) as Hp0.
  destruct (list8 name Hn) as (n1&n2&n3&n4&n5&n6&n7&n8&->).
  unfold entry_image. assert (Ln : le_int (le16 (zlen payload)) = zlen payload) by (apply le_int_le16; lia).
  unfold le16 in *. set (x := zlen payload mod 256) in *. set (y := zlen payload / 256) in *.
  change (11 mod 256) with 11. change (11 / 256) with 0. cbn [app].
  unfold entry_load. unfold ljust at 1. cbn [app rd firstn skipn].
  rewrite (type_id_byte _ t) by (cbn; auto). rewrite obind_lift. apply obind_ext. intros _.
  change (meta_length _ =? 13) with false. match goal with |- context [if meta_length ?e =? 11 then _ else _] => change (meta_length e =? 11) with true end. cbv iota beta. rewrite obind_oret.
  change (meta_length _ =? 13) with false. cbn [andb].
  change (negb (infix [0] [0; 128])) with false. rewrite obind_assoc, obind_warn_false, obind_assoc.
  rewrite leqb_refl. cbn [negb]. rewrite obind_warn_false, obind_oret.
  rewrite <- app_assoc, Ln, firstn_app_zlen by reflexivity.
  unfold calc_data_length, calc_data. cbn [with_data e_data b_data]. rewrite Z.eqb_refl. cbn [negb].
  rewrite obind_warn_false. reflexivity.
Qed.

(** ** The bytes of a storable entry *)
Lemma meta_len_13 e : e_meta e = le16 13 -> meta_length e = 13.
Proof. intros H. unfold meta_length. now rewrite H. Qed.
Lemma meta_len_11 e : e_meta e = le16 11 -> meta_length e = 11.
Proof. intros H. unfold meta_length. now rewrite H. Qed.

Lemma entry_bytes_image e : storable e -> entry_bytes e = Ok (image_of e).
Proof.
  intros [M (t & T & Bt) N (v & V & Bv) (a & A & Ba) NF D Mut].
  unfold entry_bytes, raw_calc_data_length, calc_data_length, calc_data, to_bytes_le.
  pose proof (zlen_nonneg (b_data (e_data e))) as P.
  assert (F : fits 2 (zlen (b_data (e_data e))) = true) by (apply fits_spec; change (256 ^ Z.of_nat 2) with 65536; lia).
  rewrite F. cbn [rbind]. unfold image_of. rewrite T. unfold entry_image, flash_bytes. rewrite V, A.
  rewrite (le16_le_bytes (zlen _)) by lia.
  destruct M as [M|M]; rewrite M.
  - rewrite (meta_len_11 e M). change (leqb (le16 11) [13; 0]) with false. cbv iota.
    change (py_slice ([v] ++ [a]) None (Some (11 - 11))) with (@nil Z). reflexivity.
  - rewrite (meta_len_13 e M). change (leqb (le16 13) [13; 0]) with true. cbv iota.
    change (py_slice ([v] ++ [a]) None (Some (13 - 11))) with ([v] ++ [a]). reflexivity.
Qed.

Lemma zlen_entry_image m t name fl p : zlen (entry_image m t name fl p) = 7 + zlen name + zlen fl + zlen p.
Proof. unfold entry_image, le16. rewrite !zlen_app. unfold zlen. cbn [length]. lia. Qed.

Lemma entry_len_image e : storable e -> entry_len e = zlen (image_of e).
Proof.
  intros [M (t & T & Bt) N (v & V & Bv) (a & A & Ba) NF D Mut].
  unfold image_of. rewrite T, zlen_entry_image. unfold entry_len, calc_data_length, calc_data. rewrite V, A.
  assert (zlen (e_name e) = 8) by (unfold zlen; lia).
  rewrite H. destruct M as [M|M]; rewrite M.
  - rewrite (meta_len_11 e M). change (leqb (le16 11) [13; 0]) with false. cbv iota. change (zlen (@nil Z)) with 0. lia.
  - rewrite (meta_len_13 e M). change (leqb (le16 13) [13; 0]) with true. cbv iota. change (zlen ([v] ++ [a])) with 2. lia.
Qed.

(** Loading the image of a storable entry through class [c]. *)
Lemma load_storable ps c e rest : storable e -> ~ ambiguous e -> loadable_as c e ->
  exists w e', entry_load ps c (image_of e ++ rest) = (w, Ok e') /\ same_raw e' e /\
    (forall t, e_type e = [t] -> fst (type_check c t) = [] -> quietw w).
Proof.
  intros St NA (t & T & C). destruct St as [M (t' & T' & Bt) N (v & V & Bv) (a & A & Ba) NF D Mut].
  assert (t' = t) by congruence. subst t'.
  assert (TC : exists w, type_check c t = (w, Ok tt)).
  { unfold type_check, owarn_if, owarn. destruct (type_id_of c); [|eexists; reflexivity].
    destruct (t =? z); [eexists; reflexivity|]. destruct (get_type t); eexists; reflexivity. }
  destruct TC as (wt & TC).
  assert (Fin : exists m wf, e_meta e = m /\ entry_load ps c (image_of e ++ rest) =
     (do _ := type_check c t in do _ := (wf, Ok tt) in finish ps (Entry c m [t] (e_name e) [v] [a] (Buf true (b_data (e_data e))))) /\ quietw wf).
  { unfold image_of. rewrite T. destruct M as [M|M]; rewrite M.
    - destruct (NF M) as [NV NAr]. rewrite NV in V. rewrite NAr in A. injection V as <-. injection A as <-.
      exists [11; 0], []. split; [reflexivity|]. split; [|apply quietw_nil].
      change (leqb (le16 11) [13; 0]) with false. cbv iota. rewrite load_image_11 by auto.
      apply obind_ext. intros _. now rewrite obind_ret_l.
    - exists [13; 0], (flash_warn a). split; [reflexivity|].
      change (leqb (le16 13) [13; 0]) with true. cbv iota. rewrite V, A. change ([v] ++ [a]) with [v; a].
      rewrite load_image_13; auto.
      + split; [reflexivity|]. unfold flash_warn. destruct (_ || _); [apply quietw_nil|]. intros x [<-|[]]. reflexivity.
      + intros Q. apply NA. split; auto. now rewrite V, A. }
  destruct Fin as (m & wf & Hm & E & Q). rewrite E, TC.
  destruct (finish_same ps (Entry c m [t] (e_name e) [v] [a] (Buf true (b_data (e_data e)))) t v) as (w & e' & H & S & Qw); auto.
  rewrite H. cbn [obind]. do 2 eexists. split; [reflexivity|]. split.
  - destruct S as (S1&S2&S3&S4&S5&S6). unfold same_raw. cbn in *. repeat split; try congruence.
    rewrite S6. destruct (e_data e); cbn in *; congruence.
  - intros t2 T2 W. assert (t2 = t) by congruence. subst t2. rewrite TC in W. cbn in W. subst wt. cbn [app].
    now apply quietw_app.
Qed.

Lemma load_ambiguous ps c e rest w e' : storable e -> ambiguous e ->
  entry_load ps c (image_of e ++ rest) = (w, Ok e') -> e_meta e' = le16 11 /\ In WNoFlash w.
Proof.
  intros [M (t & T & Bt) N (v & V & Bv) (a & A & Ba) NF D Mut] [AM AE] H.
  unfold image_of in H. rewrite T, AM in H. change (leqb (le16 13) [13; 0]) with true in H. cbv iota in H.
  rewrite V, A in H, AE. change ([v] ++ [a]) with [v; a] in *. rewrite load_image_13_ambiguous in H by auto.
  apply obind_ok in H as (w1 & ? & w2 & _ & H & ->). apply obind_ok in H as (w3 & ? & w4 & F & H & ->).
  injection F as <- _. apply finish_kept in H. destruct H as (H & _). cbn in H. split; auto.
  apply in_or_app. right. apply in_or_app. left. now left.
Qed.
