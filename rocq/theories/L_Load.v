(** Lemmas about versions and loading. *)
From Verif Require Import L_Base M_Data M_Flags M_Models M_Class M_Var M_Real M_Complex M_List M_Tok M_Group M_Gdb M_Load
  S_Data L_Data L_Flags S_Var L_Models L_Var L_Tok P_Tok.

(** * Values of [get_version] *)
Section Versions.
  Variable OS : Type.
  Variable os_gt os_ge : OS -> OS -> bool.
  Variable INITIAL illegal_since : OS.
  Variable os_of : model -> str -> OS.
  Variable sheet : bytes -> option (token OS).
  Variable ns : cls -> str -> out bytes.
  Variable ps : bytes -> option bool.
Notation tv := (tok_version OS os_gt os_ge INITIAL illegal_since sheet os_of).
Notation plain := (plain_version OS os_gt os_ge INITIAL illegal_since os_of sheet ns ps).
Notation vin := (version_in OS os_gt os_ge INITIAL illegal_since os_of sheet ns ps).
Notation gv := (get_version OS os_gt os_ge INITIAL illegal_since os_of sheet ns ps).

Lemma tok_range e arg w v : tv e arg = (w, Ok v) -> 0 <= v <= 44.
Proof.
  intros H. destruct (tok_version_total os_gt os_ge INITIAL illegal_since sheet os_of e arg) as (w' & v' & H' & I).
  rewrite H' in H. injection H as <- <-. cbn in I. lia.
Qed.
Lemma omapM_all {A B} (f : A -> out B) (P : B -> Prop) l w bs : (forall a w b, f a = (w, Ok b) -> P b) ->
  omapM f l = (w, Ok bs) -> Forall P bs.
Proof.
  intros F. revert w bs. induction l as [|a l IH]; intros w bs H; cbn [omapM] in H.
  - injection H as <- <-. constructor.
  - apply obind_ok in H as (w1 & b & w2 & E & H & _). apply obind_ok in H as (w3 & r & w4 & E2 & H & _). injection H as <- <-.
    constructor; eauto.
Qed.
Lemma max_range l v lo hi : lo <= v <= hi -> Forall (fun x => lo <= x <= hi) l -> lo <= fold_left Z.max l v <= hi.
Proof.
  revert v. induction l as [|x l IH]; intros v V F; [exact V|]. cbn [fold_left]. apply Forall_cons_iff in F as (X & F).
  apply IH; [lia|exact F].
Qed.
Lemma complex_values e arg v : complex_version e arg = Ok v -> In v [0; 11; 16].
Proof.
  unfold complex_version. intros H.
  repeat match goal with
  | H : rbind ?r _ = Ok _ |- _ => destruct r eqn:?; [cbn [rbind] in H|discriminate H]
  | H : (if ?b then _ else _) = Ok _ |- _ => destruct b
  | H : Ok _ = Ok _ |- _ => injection H as <-
  end. destruct (_ =? 12); [cbn; auto|]. destruct (_ =? 27); cbn; auto.
Qed.
Lemma list_values e arg w v : list_version ns ps e arg = (w, Ok v) -> In v [16; 11; 0].
Proof.
  unfold list_version. intros H. apply obind_ok in H as (? & ? & ? & _ & H & _). apply obind_ok in H as (? & ? & ? & _ & H & _).
  injection H as _ <-. destruct (_ >? 27); [cbn; auto|]. destruct (_ =? 27); cbn; auto.
Qed.
Lemma gdb_range e arg w v : gdb_version OS os_gt os_ge INITIAL illegal_since os_of sheet e arg = (w, Ok v) -> 0 <= v <= 44.
Proof.
  unfold gdb_version. intros H. apply obind_ok in H as (? & l & ? & E & H & _). injection H as _ <-.
  apply (omapM_all _ (fun v => 0 <= v <= 44)) in E. 2:{ intros q w' v' Q. eapply tok_range. exact Q. }
  destruct l as [|v l]; [lia|]. apply Forall_cons_iff in E as (V & E). now apply max_range.
Qed.
Lemma plain_range e arg w v : plain e arg = (w, Ok v) -> 0 <= v <= 44.
Proof.
  unfold plain_version. destruct (issubclass _ KTokenized); [apply tok_range|].
  destruct (issubclass _ KComplexEntry).
  { unfold olift. destruct (complex_version e arg) as [x|] eqn:E; intros H; [|discriminate H]. injection H as _ <-.
    apply complex_values in E. cbn in E. lia. }
  destruct (_ || _). { intros H. apply list_values in H. cbn in H. lia. }
  destruct (issubclass _ KMonoGDB); [apply gdb_range|].
  unfold base_version. destruct (e_cls e); cbn; intros H; injection H as _ <-; lia.
Qed.
Lemma vin_range fuel e arg w v : vin fuel e arg = (w, Ok v) -> 0 <= v <= 44.
Proof.
  revert e arg w v. induction fuel as [|fuel IH]; intros e arg w v; cbn [version_in]; (destruct (issubclass _ KGroup); [|apply plain_range]).
  - discriminate.
  - unfold group_version. intros H. apply obind_ok in H as (? & es & ? & _ & H & _). apply obind_ok in H as (? & l & ? & E & H & _).
    injection H as _ <-. apply (omapM_all _ (fun v => 0 <= v <= 44)) in E; [|eauto].
    destruct l as [|v l]; [lia|]. apply Forall_cons_iff in E as (V & E). now apply max_range.
Qed.
Lemma gv_range e arg w v : gv e arg = (w, Ok v) -> 0 <= v <= 44.
Proof. apply vin_range. Qed.
Lemma gv_tokenized e arg : issubclass (e_cls e) KTokenized = true -> gv e arg = tv e arg.
Proof.
  intros T. unfold get_version. cbn [version_in]. unfold plain_version. rewrite T.
  destruct (issubclass (e_cls e) KGroup) eqn:G; [|reflexivity]. destruct (e_cls e); discriminate.
Qed.
Lemma gv_total e arg : issubclass (e_cls e) KTokenized = true -> exists w v, gv e arg = (w, Ok v).
Proof.
  intros T. rewrite gv_tokenized by exact T. destruct (tok_version_total os_gt os_ge INITIAL illegal_since sheet os_of e arg) as (w & v & H & _). eauto.
Qed.

(** * Warnings that do not occur *)
(** The two warnings of [version_check]. *)
Definition checks (w : warning) : bool := match w with WVersionWrong | WInvalidToken => true | _ => false end.
Definition free {A} (m : out A) : Prop := forall x, In x (fst m) -> checks x = false.
Lemma free_bind {A B} (m : out A) (f : A -> out B) : free m -> (forall a, free (f a)) -> free (obind m f).
Proof.
  intros H1 H2 x. destruct m as [w [a|e]]; cbn [obind]; [|apply H1]. specialize (H2 a). destruct (f a) as [w' r]. cbn [fst]. intros I.
  apply in_app_or in I as [I|I]; [now apply H1|now apply H2].
Qed.
Lemma free_ret {A} (a : A) : free (oret a). Proof. intros x []. Qed.
Lemma free_err {A} e : @free A (oerr e). Proof. intros x []. Qed.
Lemma free_lift {A} (r : result A) : free (olift r). Proof. intros x []. Qed.
Lemma free_warn w : checks w = false -> free (owarn w). Proof. intros H x [<-|[]]. exact H. Qed.
Lemma free_warn_if b w : checks w = false -> free (owarn_if b w). Proof. intros H. destruct b; [now apply free_warn|intros x []]. Qed.
Lemma free_bits a b v c : free (bits_set a b v c).
Proof. unfold bits_set. apply free_bind; [apply free_lift|]. intros p x H. cbn [fst] in H. apply in_map_iff in H as (? & <- & _). reflexivity. Qed.
Lemma free_fit n v : free (fit_section n v).
Proof. unfold fit_section. destruct n; [|apply free_ret]. apply free_bind; [now apply free_warn_if|intros; apply free_ret]. Qed.
Lemma free_section n c : free c -> free (section_set_raw n c).
Proof. intros. apply free_bind; auto. intros; apply free_fit. Qed.
Lemma free_view t v c b : free c -> free (view_set t v c b).
Proof. intros. apply free_bind; [now apply free_section|]. intros. destruct (b_mut b); [apply free_ret|apply free_err]. Qed.
Ltac free := repeat first
  [ apply free_bits | apply free_section | apply free_view | apply free_fit
  | apply free_bind; [|intros ?] | apply free_ret | apply free_err | apply free_lift
  | apply free_warn; reflexivity | apply free_warn_if; reflexivity
  | match goal with |- free (match ?x with _ => _ end) => destruct x end
  | match goal with |- free (if ?x then _ else _) => destruct x end ].
Lemma free_coerce_own e : free (coerce_own ps e).
Proof.
  unfold coerce_own, coerce_program, coerce_graphed, coerce_list, coerce_complex, coerce_picture,
    coerce_gdb, coerce_mono_gdb, coerce_gdb, set_type_id. free.
Qed.
Lemma free_coerce e : free (coerce ps e).
Proof.
  assert (B : forall e, free (coerce_base ps e)).
  { intros x. unfold coerce_base. apply free_bind; [apply free_lift|]. intros t.
    destruct (get_type t); [apply free_coerce_own|]. apply free_bind; [|intros; apply free_ret].
    destruct (t =? 255); now apply free_warn. }
  unfold coerce. destruct (e_cls e); auto using free_coerce_own;
    (apply free_bind; [apply free_lift|]; intros; apply free_bind; [unfold set_type_id; free|]; auto).
Qed.
Lemma free_load c b : free (entry_load ps c b).
Proof.
  unfold entry_load, rd. cbv zeta beta. apply free_bind; [apply free_lift|intros t]. apply free_bind; [unfold type_check; free|intros _].
  apply free_bind; [free|intros [[ver arch] d]]. apply free_bind; [unfold set_meta_length, meta_convert; free|intros [e d2]].
  apply free_bind; [free|intros _]. apply free_bind; [apply free_coerce|intros e']. free.
Qed.
Lemma free_sized c b : free (sized_load ps c b).
Proof. unfold sized_load. apply free_bind; [apply free_load|intros e]. free. Qed.
Lemma free_decode fuel st i cur acc since r : decode_loop OS os_gt illegal_since sheet fuel st i cur acc since = Some r -> free r.
Proof.
  revert i cur acc since r. induction fuel as [|fuel IH]; intros i cur acc since r H; [discriminate H|]. cbn [decode_loop] in H.
  destruct (nth_error st i); [|injection H as <-; apply free_ret]. destruct (negb (hd 0 (cur ++ [z]) =? 0)).
  - destruct (sheet (cur ++ [z])); [now apply IH in H|]. destruct (2 <=? _).
    + destruct (decode_loop _ _ _ _ fuel _ _ _ _ _) eqn:D; [|discriminate H]. injection H as <-. apply (free_bind (owarn WDecode) (fun _ => o)); [now apply free_warn|intros _; eauto].
    + now apply IH in H.
  - destruct (negb _).
    + destruct (decode_loop _ _ _ _ fuel _ _ _ _ _) eqn:D; [|discriminate H]. injection H as <-. apply (free_bind (owarn WDecode) (fun _ => o)); [now apply free_warn|intros _; eauto].
    + now apply IH in H.
Qed.
Lemma free_tok e arg : free (tv e arg).
Proof.
  unfold tok_version, get_min_os. apply free_bind; [|intros; apply free_ret]. destruct (is_tokenized _).
  - apply free_bind; [|intros; apply free_ret]. unfold decode. destruct (decode_loop _ _ _ _ _ _ _ _ _ _) eqn:D; [now apply free_decode in D|apply free_err].
  - destruct (map snd _); apply free_ret.
Qed.

(** * The class after loading *)
Lemma coerce_own_tokenized e w e' : issubclass (e_cls e) KTokenized = true -> coerce_own ps e = (w, Ok e') -> issubclass (e_cls e') KTokenized = true.
Proof.
  intros T H. unfold coerce_own in H. destruct (issubclass (e_cls e) KProgram) eqn:P.
  - unfold coerce_program in H. destruct (negb _); [discriminate H|]. apply obind_ok in H as (? & t & ? & _ & H & _).
    destruct (t =? 5); [injection H as _ <-; destruct (is_asm ps (data e)); reflexivity|].
    destruct (t =? 6); injection H as _ <-; [destruct (is_asm ps (data e)); reflexivity|exact T].
  - destruct (cls_eqb (e_cls e) KGraphedEquation) eqn:G.
    + assert (K : e_cls e = KGraphedEquation) by (destruct (e_cls e); try discriminate G; reflexivity).
      unfold coerce_graphed in H. apply obind_ok in H as (? & t & ? & _ & H & _). destruct (t =? 35); [|injection H as _ <-; exact T].
      apply obind_ok in H as (? & b & ? & _ & H & _). unfold set_type_id in H. apply obind_ok in H as (? & z & ? & _ & H & _).
      injection H as _ <-. cbn [with_type with_data e_cls]. now rewrite K.
    + assert (X : e' = e) by (destruct (e_cls e); try discriminate T; try discriminate P; try discriminate G; injection H as _ <-; reflexivity).
      now rewrite X.
Qed.
Lemma load_coerced c b w e : entry_load ps c b = (w, Ok e) -> exists x w', e_cls x = c /\ coerce ps x = (w', Ok e).
Proof.
  intros H. unfold entry_load, rd in H. cbv zeta beta in H.
  apply obind_ok in H as (? & t & ? & _ & H & _). apply obind_ok in H as (? & [] & ? & _ & H & _).
  apply obind_ok in H as (? & [[ver arch] d] & ? & _ & H & _). apply obind_ok in H as (? & [en d2] & ? & X & H & _).
  apply obind_ok in H as (? & [] & ? & _ & H & _). apply obind_ok in H as (? & y & ? & Y & H & _).
  apply obind_ok in H as (? & v & ? & _ & H & _). apply obind_ok in H as (? & [] & ? & _ & H & _). apply obind_ok in H as (? & [] & ? & _ & H & _).
  injection H as _ <-. eexists. eexists. split; [|exact Y].
  destruct (_ && _) in X.
  - apply obind_ok in X as (? & [] & ? & _ & X & _). apply obind_ok in X as (? & z & ? & Z & X & _). injection X as _ <- _.
    unfold set_meta_length in Z. apply obind_ok in Z as (? & ? & ? & _ & Z & _). injection Z as _ <-. reflexivity.
  - apply obind_ok in X as (? & [] & ? & _ & X & _). apply obind_ok in X as (? & [] & ? & _ & X & _). injection X as _ <- _. reflexivity.
Qed.
Lemma load_tokenized c b w e : issubclass c KTokenized = true -> c <> KTokenized -> entry_load ps c b = (w, Ok e) -> issubclass (e_cls e) KTokenized = true.
Proof.
  intros T N H. apply load_coerced in H as (x & w' & C & Y). unfold coerce in Y. rewrite C in Y.
  destruct c; try discriminate T; try contradiction; refine (coerce_own_tokenized _ _ _ _ Y); rewrite C; reflexivity.
Qed.
(** Only programs become assembly programs. *)
Lemma load_keeps_kind c b w e : issubclass c KTokenized = true -> issubclass c KProgram = false -> c <> KTokenized ->
  entry_load ps c b = (w, Ok e) -> is_tokenized (e_cls e) = true.
Proof.
  intros T P N H. apply load_coerced in H as (x & w' & C & Y). unfold coerce in Y. rewrite C in Y.
  assert (K : e_cls e = c).
  { destruct c; try discriminate T; try discriminate P; try contradiction; unfold coerce_own in Y; rewrite C in Y; try (injection Y as _ <-; exact C).
    unfold coerce_graphed in Y. apply obind_ok in Y as (? & t & ? & _ & Y & _). destruct (t =? 35); [|injection Y as _ <-; exact C].
    apply obind_ok in Y as (? & b0 & ? & _ & Y & _). unfold set_type_id in Y. apply obind_ok in Y as (? & z & ? & _ & Y & _).
    injection Y as _ <-. exact C. }
  rewrite K. destruct c; try discriminate P; try discriminate T; reflexivity.
Qed.

End Versions.

(** * Loading *)
Lemma version_same e v : e_version e = [v] -> is_byte v -> version e = Ok v.
Proof. apply version_byte. Qed.
Lemma set_version_byte e u v : e_version e = [u] -> is_byte u -> 0 <= v < 256 -> exists w, set_version e v = (w, Ok (with_version e [v])).
Proof.
  intros U B V. unfold set_version, section_set_raw. destruct (bits_set_full v (e_version e) u U B) as (ws & E). rewrite E.
  rewrite Z.mod_small by lia. destruct (owarn_if _ _) as [w0 [[]|]] eqn:W; [|unfold owarn_if in W; destruct (meta_length e =? 11); discriminate W].
  cbn [obind fit_section]. unfold fit_section. cbn [length]. change (_ <? _)%nat with false. cbn [owarn_if obind]. eexists.
  destruct e; reflexivity.
Qed.
