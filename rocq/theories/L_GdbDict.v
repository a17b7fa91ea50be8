From Verif Require Import L_Base M_Data M_Flags M_Models M_Class M_Var M_Gdb M_GdbDict S_Data L_Data S_Var L_Models L_Var L_List S_Gdb L_Gdb P_Var P_Gdb S_GdbDict.

Lemma olift_ok {A} (a : A) : olift (Ok a) = oret a. Proof. reflexivity. Qed.
(** ** Views on a split payload *)
Lemma set_split vw (pre old post x : bytes) :
  resolves (v_start vw) (v_stop vw) (zlen (pre ++ old ++ post)) (zlen pre) (zlen pre + zlen old) -> length x = length old ->
  view_set None vw (oret x) (Buf true (pre ++ old ++ post)) = oret (Buf true (pre ++ x ++ post)).
Proof.
  intros R L. assert (Z : zlen x = zlen pre + zlen old - zlen pre) by (unfold zlen; lia).
  destruct (view_set_frame None vw _ _ _ x R (or_introl eq_refl) Z) as (l' & E & P & _). destruct (resolves_slice _ _ _ _ _ R) as [A B].
  etransitivity; [exact E|]. unfold oret. do 3 f_equal. rewrite (patched_unique _ _ _ _ _ _ P (slice_set_patched _ _ _ _ _ _ R Z)).
  unfold py_slice_set. rewrite A, B. pose proof (zlen_nonneg pre). pose proof (zlen_nonneg old). rewrite Z.max_r by lia.
  replace (Z.to_nat (zlen pre)) with (length pre) by (unfold zlen; lia). rewrite firstn_app_exact by reflexivity.
  replace (Z.to_nat (zlen pre + zlen old)) with (length (pre ++ old)) by (rewrite app_length; unfold zlen; lia). rewrite (app_assoc pre old post), skipn_app_exact by reflexivity. reflexivity.
Qed.
Lemma get_split vw (pre old post : bytes) :
  resolves (v_start vw) (v_stop vw) (zlen (pre ++ old ++ post)) (zlen pre) (zlen pre + zlen old) ->
  view_get vw (Buf true (pre ++ old ++ post)) = old.
Proof.
  intros R. unfold view_get. cbn [b_data]. destruct (resolves_slice _ _ _ _ _ R) as [A B]. unfold py_slice. rewrite A, B.
  pose proof (zlen_nonneg pre). pose proof (zlen_nonneg old).
  replace (Z.to_nat (zlen pre)) with (length pre) by (unfold zlen; lia). rewrite skipn_app_exact by reflexivity.
  apply firstn_app_exact. unfold zlen. lia.
Qed.
(** Views counted from the front and from the back. *)
Lemma front_resolves (pre old post : bytes) a b : a = zlen pre -> b = zlen pre + zlen old ->
  resolves (Some a) (Some b) (zlen (pre ++ old ++ post)) (zlen pre) (zlen pre + zlen old).
Proof.
  intros -> ->. pose proof (zlen_nonneg pre). pose proof (zlen_nonneg old). pose proof (zlen_nonneg post). unfold resolves. rewrite !zlen_app.
  replace (zlen pre <? 0) with false by lia. replace (zlen pre + zlen old <? 0) with false by lia. lia.
Qed.
Lemma back_resolves (pre old post : bytes) a b : a = - (zlen old + zlen post) -> b = - zlen post -> 0 < zlen post ->
  resolves (Some a) (Some b) (zlen (pre ++ old ++ post)) (zlen pre) (zlen pre + zlen old).
Proof.
  intros -> -> P. pose proof (zlen_nonneg pre). pose proof (zlen_nonneg old). unfold resolves. rewrite !zlen_app.
  replace (- (zlen old + zlen post) <? 0) with true by lia. replace (- zlen post <? 0) with true by lia. lia.
Qed.
Lemma last_resolves (pre old : bytes) a : a = - zlen old -> 0 < zlen old ->
  resolves (Some a) None (zlen (pre ++ old ++ [])) (zlen pre) (zlen pre + zlen old).
Proof.
  intros -> P. pose proof (zlen_nonneg pre). unfold resolves. rewrite !zlen_app. change (zlen (@nil Z)) with 0.
  replace (- zlen old <? 0) with true by lia. lia.
Qed.

(** An entry with a given payload. *)
Definition st (e : entry) (d : bytes) : entry := with_data e (Buf true d).
Lemma st_data e d : e_data (st e d) = Buf true d. Proof. reflexivity. Qed.
Lemma st_cls e d : e_cls (st e d) = e_cls e. Proof. reflexivity. Qed.
Lemma on_split e vw f (pre old post x : bytes) :
  resolves (v_start vw) (v_stop vw) (zlen (pre ++ old ++ post)) (zlen pre) (zlen pre + zlen old) -> length x = length old ->
  f (Buf true (pre ++ old ++ post)) = view_set None vw (oret x) (Buf true (pre ++ old ++ post)) ->
  on_data (st e (pre ++ old ++ post)) f = oret (st e (pre ++ x ++ post)).
Proof. intros R L F. unfold on_data. rewrite st_data, F, set_split by auto. reflexivity. Qed.

(** ** Flags in one byte *)
Definition merged (bits : flags) (x : Z) : option Z :=
  match flags_set (flags_ior (flags_get [x]) bits) with Ok [y] => Some y | _ => None end.
Lemma merge_split e vw bits (pre post : bytes) x y :
  resolves (v_start vw) (v_stop vw) (zlen (pre ++ [x] ++ post)) (zlen pre) (zlen pre + 1) -> merged bits x = Some y ->
  on_data (st e (pre ++ [x] ++ post)) (merge_flags vw bits) = oret (st e (pre ++ [y] ++ post)).
Proof.
  intros R M. change (zlen pre + 1) with (zlen pre + zlen [x]) in R. apply on_split with vw; auto. unfold merge_flags. rewrite (get_split vw pre [x] post R). unfold merged in M.
  destruct (flags_set _) as [[|a [|]]|]; try discriminate M. injection M as ->. reflexivity.
Qed.
Fixpoint formats (l : list jv) (x : Z) : option Z :=
  match l with
  | [] => Some x
  | j :: r => match attribute graph_mode j with Ok bits => match merged bits x with Some y => formats r y | None => None end | Err _ => None end
  end.
Lemma load_formats_ok e (pre post : bytes) : length pre = 4%nat -> forall l x y, formats l x = Some y ->
  load_formats l (st e (pre ++ [x] ++ post)) = oret (st e (pre ++ [y] ++ post)).
Proof.
  intros L. induction l as [|j r IH]; intros x y H; cbn [formats load_formats] in *.
  - injection H as ->. reflexivity.
  - destruct (attribute graph_mode j) as [bits|]; [|discriminate]. destruct (merged bits x) as [z|] eqn:M; [|discriminate].
    rewrite (merge_split e mode_view bits pre post x z); [|apply (front_resolves pre [x] post); unfold zlen; rewrite L; reflexivity|exact M].
    rewrite obind_oret. now apply IH.
Qed.
Definition is_ok_opt {A} (o : option A) : bool := match o with Some _ => true | None => false end.
Definition all_bytes : list Z := map Z.of_nat (seq 0 256).
Lemma all_bytes_in b : is_byte b -> In b all_bytes.
Proof. intros B. unfold all_bytes. apply in_map_iff. exists (Z.to_nat b). unfold is_byte in B. split; [lia|]. apply in_seq. lia. Qed.
Lemma by_bytes (f : Z -> bool) : forallb f all_bytes = true -> forall b, is_byte b -> f b = true.
Proof. intros F b B. rewrite forallb_forall in F. apply F. now apply all_bytes_in. Qed.
Lemma formats_again b : is_byte b -> exists l, format_texts [b] = Ok l /\ formats l 0 = Some (format_again b).
Proof.
  intros B. pose proof (by_bytes (fun b => match format_texts [b] with Ok l => match formats l 0 with Some y => y =? format_again b | None => false end | Err _ => false end) ltac:(vm_compute; reflexivity) b B) as H.
  cbv beta in H. destruct (format_texts [b]) as [l|]; [|discriminate]. exists l. split; [reflexivity|]. destruct (formats l 0); [|discriminate]. apply Z.eqb_eq in H. now subst.
Qed.

(** ** Names of values *)
Lemma by_range (f : Z -> bool) n : forallb f (map Z.of_nat (seq 0 n)) = true -> forall x, 0 <= x < Z.of_nat n -> f x = true.
Proof. intros F x B. rewrite forallb_forall in F. apply F. apply in_map_iff. exists (Z.to_nat x). split; [lia|]. apply in_seq. lia. Qed.
Definition names_back (tbl : list (str * Z)) (x : Z) : bool :=
  match name_of tbl x with JStr s => match attribute tbl (JStr s) with Ok y => x =? y | Err _ => false end | _ => false end && memb x (map snd tbl).
Lemma names_back_ok tbl x : names_back tbl x = true -> 0 <= x <= 255 -> exists s, name_of tbl x = JStr s /\ attribute tbl (JStr s) = Ok x /\ enum_set (map snd tbl) x = oret [x].
Proof.
  unfold names_back. intros H B. apply andb_prop in H as [H M]. destruct (name_of tbl x); try discriminate H. exists s. split; [reflexivity|].
  destruct (attribute tbl (JStr s)); [|discriminate H]. apply Z.eqb_eq in H. subst. split; [reflexivity|]. unfold enum_set. rewrite M. cbn [negb].
  unfold byte_of. replace (is_byteb a) with true by (unfold is_byteb; lia). reflexivity.
Qed.
Lemma style_back x : named_style x -> exists s, name_of graph_style x = JStr s /\ attribute graph_style (JStr s) = Ok x /\ enum_set (map snd graph_style) x = oret [x].
Proof. intros B. unfold named_style in B. apply names_back_ok; [|lia]. apply (by_range (names_back graph_style) 7); [vm_compute; reflexivity|lia]. Qed.
Lemma color_back x : named_color x -> exists s, name_of graph_color x = JStr s /\ attribute graph_color (JStr s) = Ok x /\ enum_set (map snd graph_color) x = oret [x].
Proof. intros B. unfold named_color in B. apply names_back_ok; [|lia]. apply (by_range (names_back graph_color) 16); [vm_compute; reflexivity|lia]. Qed.
Lemma line_back x : 0 <= x <= 3 -> exists s, name_of line_style x = JStr s /\ attribute line_style (JStr s) = Ok x /\ enum_set (map snd line_style) x = oret [x].
Proof. intros B. apply names_back_ok; [|lia]. apply (by_range (names_back line_style) 4); [vm_compute; reflexivity|lia]. Qed.
Lemma no_style x : is_byte x -> ~ named_style x -> name_of graph_style x = JNull.
Proof.
  intros B N. unfold named_style in N. pose proof (by_bytes (fun x => (x <=? 6) || match name_of graph_style x with JNull => true | _ => false end) ltac:(vm_compute; reflexivity) x B) as H.
  cbv beta in H. unfold is_byte in B. replace (x <=? 6) with false in H by lia. destruct (name_of graph_style x); try discriminate H. reflexivity.
Qed.
Lemma no_color x : is_byte x -> ~ named_color x -> name_of graph_color x = JNull.
Proof.
  intros B N. unfold named_color in N. pose proof (by_bytes (fun x => (x <=? 15) || match name_of graph_color x with JNull => true | _ => false end) ltac:(vm_compute; reflexivity) x B) as H.
  cbv beta in H. unfold is_byte in B. replace (x <=? 15) with false in H by lia. destruct (name_of graph_color x); try discriminate H. reflexivity.
Qed.
(** [COLORS[border - 1]]. *)
Lemma border_back b : 0 <= b <= 4 -> border_of (JNum b 0) = Ok (if b =? 0 then 4 else b) /\ enum_set border_colors (if b =? 0 then 4 else b) = oret [if b =? 0 then 4 else b].
Proof.
  intros B. assert (b = 0 \/ b = 1 \/ b = 2 \/ b = 3 \/ b = 4) as [-> | [-> | [-> | [-> | ->]]]] by lia; split; reflexivity.
Qed.

(** ** Numbers *)
Lemma shape_length c p s r : shape c = Some (p, s, r) -> calc_length c = None /\ length (params c) = (6 + p)%nat /\ params c <> [].
Proof. destruct c; cbn [shape]; intros H; try discriminate H; injection H as <- <- <-; repeat split; discriminate. Qed.
Definition name_at (c : cls) (k : nat) : str := nth k (params c) [].
Definition view_at (k : nat) : view := View (Some (7 + 9 * Z.of_nat k)) (Some (16 + 9 * Z.of_nat k)).
Definition names_check (c : cls) (k : nat) : bool :=
  match assoc (name_at c k) (fields c), real_view c (name_at c k) with
  | Some (View (Some a) (Some b)), Some (View (Some a') (Some b')) =>
      (a =? 7 + 9 * Z.of_nat k) && (b =? 16 + 9 * Z.of_nat k) && (a' =? a) && (b' =? b) && Bool.eqb (existsb (leqb (name_at c k)) whole_names) (whole_at c k)
  | _, _ => false
  end.
Lemma names_at c p s r k : shape c = Some (p, s, r) -> (k < 6 + p)%nat ->
  assoc (name_at c k) (fields c) = Some (view_at k) /\ real_view c (name_at c k) = Some (view_at k) /\ existsb (leqb (name_at c k)) whole_names = whole_at c k.
Proof.
  intros S K. assert (C : forallb (names_check c) (seq 0 (6 + p)) = true).
  { destruct c; cbn [shape] in S; try discriminate S; injection S as <- <- <-; vm_compute; reflexivity. }
  rewrite forallb_forall in C. specialize (C k (proj2 (in_seq _ _ _) (conj (Nat.le_0_l k) K))). unfold names_check in C.
  destruct (assoc _ _) as [[[a|] [b|]]|]; try discriminate C. destruct (real_view _ _) as [[[a'|] [b'|]]|]; try discriminate C.
  repeat (apply andb_prop in C as [C ?]). apply Bool.eqb_prop in H. unfold view_at. repeat split; auto; do 2 f_equal; f_equal; lia.
Qed.
Definition positions (c : cls) : list nat :=
  match c with
  | KMonoFunc | KFunc => [6] | KMonoSeq | KSeq => [10; 7; 6; 14; 8; 11; 9; 12; 13; 15] | KMonoGDB | KGDB => []
  | _ => [6; 7; 8]
  end%nat.
Lemma keys_at c p s r : shape c = Some (p, s, r) ->
  gdb_settings_dict c = map (fun k => (name_at c k, name_at c (shown_at c k))) (positions c) /\
  window_keys = map (fun k => (name_at c k, name_at c (shown_at c k))) (seq 0 6) /\ Forall (fun k => (k < 6 + p)%nat) (positions c).
Proof.
  destruct c; cbn [shape]; intros H; try discriminate H; injection H as <- <- <-; (split; [reflexivity|]; split; [reflexivity|]); repeat constructor; lia.
Qed.
Lemma shown_lt c p s r k : shape c = Some (p, s, r) -> (k < 6 + p)%nat -> (shown_at c k < 6 + p)%nat /\ whole_at c (shown_at c k) = whole_at c k.
Proof.
  intros S K. unfold shown_at. destruct (is_seq c && Nat.eqb k 9) eqn:E; [|auto]. apply andb_prop in E as [E N]. apply Nat.eqb_eq in N. subst k.
  destruct c; try discriminate E; cbn [shape] in S; injection S as <- <- <-; split; try lia; reflexivity.
Qed.
Lemma get_number (h rest : bytes) k n : length h = (61 + 9 * n)%nat -> (k < 6 + n)%nat -> view_get (view_at k) (Buf true (h ++ rest)) = number_at h k.
Proof.
  intros L K. unfold view_get, view_at. cbn [b_data v_start v_stop]. rewrite py_slice_nn by (rewrite ?zlen_app; unfold zlen; lia).
  unfold number_at. replace (Z.to_nat (7 + 9 * Z.of_nat k)) with (7 + 9 * k)%nat by lia. replace (Z.to_nat (16 + 9 * Z.of_nat k - (7 + 9 * Z.of_nat k))) with 9%nat by lia.
  rewrite skipn_app. replace (7 + 9 * k - length h)%nat with 0%nat by lia. rewrite firstn_app. rewrite skipn_length. replace (9 - (length h - (7 + 9 * k)))%nat with 0%nat by lia.
  cbn [skipn firstn]. apply app_nil_r.
Qed.
Definition nines (cs : list bytes) : Prop := Forall (fun c => length c = 9%nat) cs.
Lemma nines_concat cs : nines cs -> length (concat cs) = (9 * length cs)%nat.
Proof. induction 1 as [|c cs H F IH]; [reflexivity|]. cbn [concat length]. rewrite app_length, H, IH. lia. Qed.
Lemma put_concat k (x : bytes) cs : concat (put k x cs) = concat (firstn k cs) ++ x ++ concat (skipn (S k) cs).
Proof. unfold put. now rewrite concat_app. Qed.
Lemma split_concat k (cs : list bytes) : (k < length cs)%nat -> concat cs = concat (firstn k cs) ++ nth k cs [] ++ concat (skipn (S k) cs).
Proof.
  revert k. induction cs as [|c cs IH]; intros [|k] H; cbn [length] in H; try lia; [reflexivity|]. cbn [concat firstn nth skipn]. rewrite (IH k) at 1 by lia. now rewrite app_assoc.
Qed.
Lemma nines_put k x cs : nines cs -> length x = 9%nat -> nines (put k x cs).
Proof.
  intros N L. unfold nines, put. apply Forall_app. split; [|constructor; [exact L|]].
  - apply Forall_forall. intros y Hy. unfold nines in N. rewrite Forall_forall in N. apply N. rewrite <- (firstn_skipn k cs). apply in_or_app. now left.
  - apply Forall_forall. intros y Hy. unfold nines in N. rewrite Forall_forall in N. apply N. rewrite <- (firstn_skipn (S k) cs). apply in_or_app. now right.
Qed.
Lemma put_length {A} k (x : A) l : (k < length l)%nat -> length (put k x l) = length l.
Proof. intros H. rewrite put_replace by exact H. apply replace_length. Qed.
Lemma set_number e (pre post x : bytes) cs k : calc_length (e_cls e) = None -> length pre = 7%nat -> nines cs -> (k < length cs)%nat -> length x = 9%nat ->
  set_field (st e (pre ++ concat cs ++ post)) (view_at k) x = oret (st e (pre ++ concat (put k x cs) ++ post)).
Proof.
  intros C L N K X. unfold set_field. rewrite st_cls, C, st_data.
  assert (NK : length (nth k cs []) = 9%nat) by (unfold nines in N; rewrite Forall_forall in N; apply N; now apply nth_In).
  assert (NF : length (concat (firstn k cs)) = (9 * k)%nat).
  { rewrite nines_concat; [rewrite firstn_length; lia|]. apply Forall_forall. intros y Hy. unfold nines in N. rewrite Forall_forall in N. apply N. rewrite <- (firstn_skipn k cs). apply in_or_app. now left. }
  rewrite (split_concat k cs K), put_concat.
  replace (pre ++ (concat (firstn k cs) ++ nth k cs [] ++ concat (skipn (S k) cs)) ++ post) with ((pre ++ concat (firstn k cs)) ++ nth k cs [] ++ (concat (skipn (S k) cs) ++ post)) by (rewrite <- !app_assoc; reflexivity).
  rewrite set_split with (x := x); [| |lia].
  - rewrite obind_oret. unfold st, with_data. cbn. do 3 f_equal. rewrite <- !app_assoc. reflexivity.
  - apply front_resolves; unfold zlen; rewrite ?app_length, ?NF, ?NK, ?L; lia.
Qed.

Section Numbers.
Variable real_of : jv -> out bytes.
Variable misfit : str -> bytes -> bool.
Variable other_attr : entry -> str -> jv -> option (out entry).

Lemma load_reals_ok e c p s r (pre post : bytes) js again : e_cls e = c -> shape c = Some (p, s, r) -> length pre = 7%nat ->
  forall ks cs, nines cs -> length cs = (6 + p)%nat ->
  Forall (fun k => (k < 6 + p)%nat /\ real_of (js k) = oret (again k) /\ length (again k) = 9%nat /\ misfit (name_at c k) (again k) = false) ks ->
  load_reals real_of misfit other_attr (map (fun k => (name_at c k, js k)) ks) (st e (pre ++ concat cs ++ post)) =
  oret (st e (pre ++ concat (fold_left (fun cs k => put k (again k) cs) ks cs) ++ post)).
Proof.
  intros E S L. destruct (shape_length c p s r S) as (CL & _). induction ks as [|k ks IH]; intros cs N LC F; [reflexivity|].
  apply Forall_cons_iff in F as ((K & R & R9 & M) & F'). cbn [map load_reals fold_left]. rewrite st_cls, E. destruct (names_at c p s r k S K) as (_ & -> & _). rewrite R, obind_oret, M.
  change (owarn_if false WGraphReal) with (@nil warning, Ok tt). rewrite obind_ret_l.
  rewrite set_number; [|rewrite E; exact CL|exact L|exact N|lia|exact R9]. rewrite obind_oret. apply IH; [now apply nines_put| |exact F'].
  rewrite put_length; lia.
Qed.
End Numbers.
Section Shown.
Variable number_of whole_of : bytes -> out jv.
Lemma shown_reals_ok e c p s r (h rest : bytes) js : e_cls e = c -> shape c = Some (p, s, r) -> length h = (61 + 9 * p)%nat ->
  forall ks, Forall (fun k => (k < 6 + p)%nat /\ (if whole_at c k then whole_of else number_of) (number_at h (shown_at c k)) = oret (js k)) ks ->
  shown_reals number_of whole_of (map (fun k => (name_at c k, name_at c (shown_at c k))) ks) (st e (h ++ rest)) = oret (map (fun k => (name_at c k, js k)) ks).
Proof.
  intros E S L. induction 1 as [|k ks (K & H) F IH]; [reflexivity|]. cbn [map shown_reals]. destruct (shown_lt c p s r k S K) as [K' W].
  unfold shown_real. rewrite st_cls, E. destruct (names_at c p s r _ S K') as (-> & _ & ->). rewrite W. unfold get_field. rewrite st_data, (get_number h rest _ p L K').
  rewrite H, obind_oret, IH, obind_oret. reflexivity.
Qed.
End Shown.
(** Every number is written once. *)
Lemma fold_numbers c p s r (again : nat -> bytes) cs : shape c = Some (p, s, r) -> length cs = (6 + p)%nat ->
  fold_left (fun cs k => put k (again k) cs) (positions c) (fold_left (fun cs k => put k (again k) cs) (seq 0 6) cs) = map again (seq 0 (6 + p)).
Proof.
  intros S L. destruct c; cbn [shape] in S; try discriminate S; injection S as <- <- <-; repeat (destruct cs as [|? cs]; try discriminate L); reflexivity.
Qed.
Lemma fold_length (again : nat -> bytes) ks : forall cs, Forall (fun k => (k < length cs)%nat /\ length (again k) = 9%nat) ks -> nines cs ->
  nines (fold_left (fun cs k => put k (again k) cs) ks cs) /\ length (fold_left (fun cs k => put k (again k) cs) ks cs) = length cs.
Proof.
  induction ks as [|k ks IH]; intros cs F N; [auto|]. apply Forall_cons_iff in F as ((K & R) & F'). cbn [fold_left]. rewrite <- (put_length k (again k) cs K). apply IH; [|now apply nines_put].
  rewrite put_length by exact K. exact F'.
Qed.

(** ** Equations *)
Section Equations.
Variable expr_of : geq -> out str.
Variable load_expr : jv -> out bytes.

Definition flags_json (f : Z) : jv :=
  JObj [(s2l "selected", JBool (Z.testbit f 5)); (s2l "wasUsedForGraph", JBool (Z.testbit f 6)); (s2l "linkTransfer", JBool (Z.testbit f 7))].
Lemma flag_bits f : is_byte f -> flag_in (selected true) [f] = Ok (Z.testbit f 5) /\ flag_in (used true) [f] = Ok (Z.testbit f 6) /\ flag_in (linked true) [f] = Ok (Z.testbit f 7).
Proof.
  intros B. pose proof (by_bytes (fun f => match flag_in (selected true) [f], flag_in (used true) [f], flag_in (linked true) [f] with
    | Ok a, Ok b, Ok c => Bool.eqb a (Z.testbit f 5) && Bool.eqb b (Z.testbit f 6) && Bool.eqb c (Z.testbit f 7) | _, _, _ => false end) ltac:(vm_compute; reflexivity) f B) as H.
  cbv beta in H. destruct (flag_in (selected true) [f]); [|discriminate]. destruct (flag_in (used true) [f]); [|discriminate]. destruct (flag_in (linked true) [f]); [|discriminate].
  apply andb_prop in H as [H C]. apply andb_prop in H as [A B']. apply Bool.eqb_prop in A, B', C. now subst.
Qed.
Lemma flags_back f : is_byte f -> exists a b, merged (selected (Z.testbit f 5)) 3 = Some a /\ merged (used (Z.testbit f 6)) a = Some b /\ merged (linked (Z.testbit f 7)) b = Some (flag_again f).
Proof.
  intros B. pose proof (by_bytes (fun f => match merged (selected (Z.testbit f 5)) 3 with Some a => match merged (used (Z.testbit f 6)) a with Some b =>
    match merged (linked (Z.testbit f 7)) b with Some c => c =? flag_again f | None => false end | None => false end | None => false end) ltac:(vm_compute; reflexivity) f B) as H.
  cbv beta in H. destruct (merged (selected (Z.testbit f 5)) 3) as [a|]; [|discriminate]. destruct (merged (used (Z.testbit f 6)) a) as [b|] eqn:Q; [|discriminate]. exists a, b.
  split; [reflexivity|]. split; [exact Q|]. destruct (merged (linked _) b); [|discriminate]. apply Z.eqb_eq in H. now subst.
Qed.
Lemma equation_dict_ok q sv cv s : is_byte (x_flag q) -> expr_of (Geq (eqn_bytes q) (Some [sv]) (Some [cv])) = oret s ->
  equation_dict expr_of (Geq (eqn_bytes q) (Some [sv]) (Some [cv])) =
  oret (JObj ((s2l "style", name_of graph_style sv) :: (if cv =? 0 then [] else [(s2l "color", name_of graph_color cv)]) ++ [(s2l "flags", flags_json (x_flag q)); (s2l "expr", JStr s)])).
Proof.
  intros B X. unfold equation_dict. cbn [q_style q_color q_data].
  change (rbind (slot (Some [sv])) enum_get) with (Ok sv). change (rbind (slot (Some [cv])) enum_get) with (Ok cv).
  change (olift (Ok sv)) with (oret sv). rewrite obind_oret. change (olift (Ok cv)) with (oret cv). rewrite obind_oret. cbv zeta.
  replace (view_get byte0 (Buf true (eqn_bytes q))) with [x_flag q] by (symmetry; exact (get_split byte0 [] [x_flag q] (le16 (zlen (x_body q)) ++ x_body q) (front_resolves [] [x_flag q] _ 0 1 eq_refl eq_refl))). destruct (flag_bits (x_flag q) B) as (-> & -> & ->).
  repeat (change (olift (Ok (Z.testbit (x_flag q) ?n))) with (oret (Z.testbit (x_flag q) n)); rewrite obind_oret). rewrite X, obind_oret. reflexivity.
Qed.
Lemma merge_first bits (x y : Z) (t : bytes) : merged bits x = Some y -> merge_flags byte0 bits (Buf true (x :: t)) = oret (Buf true (y :: t)).
Proof.
  intros M. pose proof (merge_split (Entry KFunc [] [] [] [] [] (Buf true [])) byte0 bits [] t x y (front_resolves [] [x] t 0 1 eq_refl eq_refl) M) as H.
  unfold on_data in H. rewrite st_data in H. cbn [app] in H. destruct (merge_flags byte0 bits (Buf true (x :: t))) as [w [b|]]; unfold obind, oret in H; [|discriminate].
  unfold st, with_data in H. cbn in H. injection H as E1 E2. rewrite app_nil_r in E1. subst. reflexivity.
Qed.
Lemma equation_load_ok f sv cv s (x : bytes) : is_byte f -> named_style sv -> named_color cv -> cv <> 0 -> load_expr (JStr s) = oret x ->
  equation_load load_expr (JObj ((s2l "style", name_of graph_style sv) :: (if cv =? 0 then [] else [(s2l "color", name_of graph_color cv)]) ++ [(s2l "flags", flags_json f); (s2l "expr", JStr s)])) =
  oret (Geq (flag_again f :: x) (Some [sv]) (Some [cv])).
Proof.
  intros B SV CV NZ X. destruct (style_back sv SV) as (s1 & -> & A1 & E1). destruct (color_back cv CV) as (s2 & -> & A2 & E2). replace (cv =? 0) with false by lia.
  unfold equation_load. rewrite !olift_ok. rewrite obind_oret.
  match goal with |- context [field (s2l "style") ?l] => set (L := l) end.
  change (field (s2l "style") L) with (Ok (JStr s1)). change (field (s2l "color") L) with (Ok (JStr s2)). change (field (s2l "expr") L) with (Ok (JStr s)). change (field (s2l "flags") L) with (Ok (flags_json f)).
  cbn [rbind]. rewrite A1, A2. cbn [flags_json].
  rewrite !olift_ok, obind_oret, E1, !obind_oret, E2, !obind_oret, X, obind_oret.
  cbv zeta. change (firstn 1 (q_data fresh_equation) ++ x) with (3 :: x).
  assert (V : view_set None byte0 (olift (flags_set (flags_init (Some [(1, 1); (0, 1)]) 8))) (Buf true (3 :: x)) = oret (Buf true (3 :: x))).
  { replace (flags_set (flags_init (Some [(1, 1); (0, 1)]) 8)) with (Ok [3]) by (vm_compute; reflexivity). change (olift (Ok [3])) with (oret [3]).
    exact (set_split byte0 [] [3] x [3] (front_resolves [] [3] x 0 1 eq_refl eq_refl) eq_refl). }
  rewrite V, !obind_oret. destruct (flags_back f B) as (a & b & M1 & M2 & M3).
  match goal with |- context [selected ?b] => change b with (Z.testbit f 5) end. match goal with |- context [used ?b] => change b with (Z.testbit f 6) end. match goal with |- context [linked ?b] => change b with (Z.testbit f 7) end.
  rewrite (merge_first _ _ _ x M1), obind_oret, (merge_first _ _ _ x M2), obind_oret, (merge_first _ _ _ x M3), obind_oret. reflexivity.
Qed.
(** Without a colour the key is missing; without a name for the style or the
    colour the name is not a text. *)
Lemma equation_load_mono f sv s : named_style sv ->
  equation_load load_expr (JObj ((s2l "style", name_of graph_style sv) :: (if 0 =? 0 then [] else [(s2l "color", name_of graph_color 0)]) ++ [(s2l "flags", flags_json f); (s2l "expr", JStr s)])) = oerr KeyError.
Proof.
  intros SV. destruct (style_back sv SV) as (s1 & -> & A1 & E1). unfold equation_load. rewrite !olift_ok. rewrite obind_oret.
  match goal with |- context [field (s2l "style") ?l] => set (L := l) end. change (field (s2l "style") L) with (Ok (JStr s1)). change (field (s2l "color") L) with (@Err jv KeyError).
  cbn [rbind]. rewrite A1. rewrite !olift_ok. rewrite obind_oret, E1, obind_oret. reflexivity.
Qed.
Lemma equation_load_style f sv cv s : is_byte sv -> ~ named_style sv ->
  equation_load load_expr (JObj ((s2l "style", name_of graph_style sv) :: (if cv =? 0 then [] else [(s2l "color", name_of graph_color cv)]) ++ [(s2l "flags", flags_json f); (s2l "expr", JStr s)])) = oerr TypeError.
Proof. intros B N. rewrite (no_style sv B N). reflexivity. Qed.
Lemma equation_load_color f sv cv s : named_style sv -> is_byte cv -> ~ named_color cv ->
  equation_load load_expr (JObj ((s2l "style", name_of graph_style sv) :: (if cv =? 0 then [] else [(s2l "color", name_of graph_color cv)]) ++ [(s2l "flags", flags_json f); (s2l "expr", JStr s)])) = oerr TypeError.
Proof.
  intros SV B N. destruct (style_back sv SV) as (s1 & -> & A1 & E1). rewrite (no_color cv B N). replace (cv =? 0) with false by (unfold named_color in N; lia).
  unfold equation_load. rewrite !olift_ok. rewrite obind_oret.
  match goal with |- context [field (s2l "style") ?l] => set (L := l) end. change (field (s2l "style") L) with (Ok (JStr s1)). change (field (s2l "color") L) with (Ok JNull).
  cbn [rbind]. rewrite A1. rewrite !olift_ok. rewrite obind_oret, E1, obind_oret. reflexivity.
Qed.
End Equations.

(** ** Loading up to the equations *)
Definition blank (c : cls) (m fmt x : Z) (nums : list bytes) : gdb :=
  match shape c with
  | Some (p, s, r) =>
      Gdb (le16 (empty_size p s r (colour c) - 2) ++ [0; m; fmt; 0; x] ++ concat nums) (zeros s) (repeat (Eqn 0 []) (s * r))
          (if colour c then Some (Tail (zeros 3) (zeros s) (zeros 5)) else None)
  | None => Gdb [] [] [] None
  end.
Lemma clear_blank e p s r : shape (e_cls e) = Some (p, s, r) -> clear e = oret (st e (gdb_bytes (blank (e_cls e) 0 0 0 (repeat (zeros 9) (6 + p))))).
Proof.
  destruct e as [c me ty nm ve ar da]. cbn [e_cls]. intros S. destruct c; cbn [shape] in S; try discriminate S; injection S as <- <- <-; vm_compute; reflexivity.
Qed.
(** The payload of [blank] in three parts. *)
Lemma blank_split c p s r : shape c = Some (p, s, r) -> exists a b post, le16 (empty_size p s r (colour c) - 2) = [a; b] /\
  forall m fmt x nums, gdb_bytes (blank c m fmt x nums) = [a; b; 0; m; fmt; 0; x] ++ concat nums ++ post.
Proof.
  intros S. exists ((empty_size p s r (colour c) - 2) mod 256), ((empty_size p s r (colour c) - 2) / 256), (zeros s ++ concat (map eqn_bytes (repeat (Eqn 0 []) (s * r))) ++ tail_bytes (if colour c then Some (Tail (zeros 3) (zeros s) (zeros 5)) else None)).
  split.
  - destruct c; cbn [shape] in S; try discriminate S; injection S as <- <- <-; reflexivity.
  - intros. unfold gdb_bytes, blank. rewrite S. cbn [g_head g_styles g_eqns g_tail]. rewrite <- !app_assoc.
    destruct c; cbn [shape] in S; try discriminate S; injection S as <- <- <-; reflexivity.
Qed.
Lemma mode_id_cons a b z m rest : gdb_mode_id (a :: b :: z :: m :: rest) = m.
Proof. exact (mode_slice (Gdb [a; b; z; m] [] [] None) m rest eq_refl). Qed.
Lemma blank_ok c p s r m fmt x nums : shape c = Some (p, s, r) -> nines nums -> length nums = (6 + p)%nat -> gdb_ok c (blank c m fmt x nums).
Proof.
  intros S N L. exists p, s, r. split; [exact S|]. unfold blank. rewrite S. cbn [g_head g_styles g_eqns g_tail]. pose proof (nines_concat nums N) as NC. rewrite L in NC.
  split; [|split; [unfold zeros; apply repeat_length|split; [apply repeat_length|split]]].
  - unfold le16. cbn [le_bytes app length]. rewrite NC. lia.
  - apply Forall_forall. intros q Hq. apply repeat_spec in Hq. subst. reflexivity.
  - destruct (colour c); [|exact I]. cbn [t_magic t_colors t_rest]. repeat split. apply repeat_length.
Qed.

Lemma expr_bit x : is_byte x -> flag_in (const graph_mode "ExprOn") [x] = Ok (negb (Z.testbit x 0)) /\
  merged (if negb (Z.testbit x 0) then const graph_mode "ExprOn" else const graph_mode "ExprOff") 0 = Some (x mod 2).
Proof.
  intros B. pose proof (by_bytes (fun x => match flag_in (const graph_mode "ExprOn") [x], merged (if negb (Z.testbit x 0) then const graph_mode "ExprOn" else const graph_mode "ExprOff") 0 with
    | Ok a, Some y => Bool.eqb a (negb (Z.testbit x 0)) && (y =? x mod 2) | _, _ => false end) ltac:(vm_compute; reflexivity) x B) as H. cbv beta in H.
  destruct (flag_in _ [x]); [|discriminate]. destruct (merged _ 0); [|discriminate]. apply andb_prop in H as [H1 H2]. apply Bool.eqb_prop in H1. apply Z.eqb_eq in H2. now subst.
Qed.
Lemma asym_bit x : is_byte x -> flag_in (const graph_mode "DetectAsymptotesOn") [x] = Ok (negb (Z.testbit x 0)) /\
  merged (if negb (Z.testbit x 0) then const graph_mode "DetectAsymptotesOn" else const graph_mode "DetectAsymptotesOff") 0 = Some (x mod 2).
Proof. exact (expr_bit x). Qed.

Section Load.
Variable real_of : jv -> out bytes.
Variable misfit : str -> bytes -> bool.
Variable load_expr : jv -> out bytes.
Variable other_attr : entry -> str -> jv -> option (out entry).

Definition number_loads (c : cls) (js : nat -> jv) (again : nat -> bytes) (k : nat) : Prop :=
  real_of (js k) = oret (again k) /\ length (again k) = 9%nat /\ misfit (name_at c k) (again k) = false.
Lemma load_start e c p s r dct mn fl fmt ext x sp Q js again :
  e_cls e = c -> shape c = Some (p, s, r) -> is_byte x ->
  jfind (s2l "graphMode") dct = Some (JStr mn) -> assoc mn mode_names = Some (mode_value c) ->
  jfind (s2l "formatSettings") dct = Some (JArr fl) -> formats fl 0 = Some fmt ->
  jfind (s2l "extSettings") dct = Some (JObj ext) -> jfind (s2l "showExpr") ext = Some (JBool (negb (Z.testbit x 0))) ->
  (is_seq c = true \/ (jfind (s2l "seqMode") ext = None /\ jfind (s2l "seqSettings") dct = None)) ->
  jfind (s2l "globalWindowSettings") dct = Some (JObj (map (fun k => (name_at c k, js k)) (seq 0 6))) ->
  jfind (s2l "specificData") dct = Some (JObj sp) -> jfind (s2l "settings") sp = Some (JObj (map (fun k => (name_at c k, js k)) (positions c))) ->
  jfind (s2l "equations") sp = Some (JObj Q) ->
  (forall k, (k < 6 + p)%nat -> number_loads c js again k) ->
  gdb_load_dict real_of misfit load_expr other_attr dct e =
  do e := load_equations load_expr Q (st e (gdb_bytes (blank c (mode_value c) fmt (x mod 2) (map again (seq 0 (6 + p)))))) in
  let e := match jfind (s2l "global84CSettings") dct with Some _ => with_cls e KGDB | None => e end in
  do e := (if issubclass (e_cls e) KGDB then coerce_gdb e else coerce_mono_gdb e) in
  load_special dct e.
Proof.
  intros E S BX J1 A1 J2 F J3 J4 SQ J5 J6 J7 J8 R. unfold gdb_load_dict.
  rewrite (clear_blank e p s r) by (rewrite E; exact S). rewrite E, obind_oret. destruct (blank_split c p s r S) as (a & b & post & _ & B). rewrite !B.
  unfold mode_of. rewrite J1. cbv zeta. rewrite A1. rewrite olift_ok, obind_oret. cbn [fst snd].
  assert (BM : byte_of (mode_value c) = Ok [mode_value c]) by (destruct c; reflexivity).
  assert (SM : set_mode (st e ([a; b; 0; 0; 0; 0; 0] ++ concat (repeat (zeros 9) (6 + p)) ++ post)) (mode_value c) = oret (st e ([a; b; 0; mode_value c] ++ [0] ++ [0; 0] ++ concat (repeat (zeros 9) (6 + p)) ++ post))).
  { unfold set_mode. rewrite BM, olift_ok. apply (on_split e (View (Some 3) (Some 4)) _ [a; b; 0] [0] ([0; 0; 0] ++ concat (repeat (zeros 9) (6 + p)) ++ post) [mode_value c]); [|reflexivity|reflexivity].
    apply (front_resolves [a; b; 0] [0]); reflexivity. }
  rewrite SM, obind_oret. rewrite J2, olift_ok, obind_oret. rewrite (load_formats_ok e [a; b; 0; mode_value c] _ eq_refl _ _ _ F), obind_oret.
  unfold sub at 1. rewrite J3, olift_ok, obind_oret, J4. cbn [truthy]. destruct (expr_bit x BX) as [_ MX].
  change ([a; b; 0; mode_value c] ++ [fmt] ++ [0; 0] ++ concat (repeat (zeros 9) (6 + p)) ++ post) with ([a; b; 0; mode_value c; fmt; 0] ++ [0] ++ (concat (repeat (zeros 9) (6 + p)) ++ post)).
  rewrite (merge_split e ext_view _ [a; b; 0; mode_value c; fmt; 0] _ 0 (x mod 2)); [|apply (front_resolves [a; b; 0; mode_value c; fmt; 0] [0]); reflexivity|exact MX].
  rewrite obind_oret. cbn [app]. unfold calc_data. rewrite st_data. cbn [b_data]. rewrite mode_id_cons.
  assert (W : (negb (mode_value c =? 128) && ((match jfind (s2l "seqMode") ext with Some _ => true | None => false end) || (match jfind (s2l "seqSettings") dct with Some _ => true | None => false end))) = false).
  { destruct SQ as [SQ | [-> ->]]; [|apply andb_false_r]. destruct c; try discriminate SQ; reflexivity. }
  rewrite W, obind_oret.
  assert (NZ : nines (repeat (zeros 9) (6 + p))) by (apply Forall_forall; intros y Hy; apply repeat_spec in Hy; subst; reflexivity).
  assert (LZ : length (repeat (zeros 9) (6 + p)) = (6 + p)%nat) by apply repeat_length.
  unfold sub at 1. rewrite J5, olift_ok, obind_oret.
  change (a :: b :: 0 :: mode_value c :: fmt :: 0 :: x mod 2 :: concat (repeat (zeros 9) (6 + p)) ++ post) with ([a; b; 0; mode_value c; fmt; 0; x mod 2] ++ concat (repeat (zeros 9) (6 + p)) ++ post).
  assert (P6 : forall k, In k (seq 0 6) -> (k < 6 + p)%nat) by (intros k Hk; apply in_seq in Hk; lia).
  assert (FW : forall ks, (forall k, In k ks -> (k < 6 + p)%nat) -> Forall (fun k => (k < 6 + p)%nat /\ real_of (js k) = oret (again k) /\ length (again k) = 9%nat /\ misfit (name_at c k) (again k) = false) ks).
  { intros ks Hk. apply Forall_forall. intros k I. specialize (Hk k I). split; [exact Hk|]. exact (R k Hk). }
  rewrite (load_reals_ok real_of misfit other_attr e c p s r [a; b; 0; mode_value c; fmt; 0; x mod 2] post js again E S eq_refl (seq 0 6) _ NZ LZ (FW _ P6)), obind_oret.
  destruct (fold_length again (seq 0 6) (repeat (zeros 9) (6 + p))) as [N6 L6]; [|exact NZ|].
  { apply Forall_forall. intros k I. rewrite LZ. specialize (P6 k I). destruct (R k P6) as (_ & ? & _). auto. }
  unfold sub at 1. rewrite J6, olift_ok, obind_oret. unfold sub at 1. rewrite J7, olift_ok, obind_oret.
  destruct (keys_at c p s r S) as (_ & _ & FP). rewrite Forall_forall in FP.
  rewrite (load_reals_ok real_of misfit other_attr e c p s r [a; b; 0; mode_value c; fmt; 0; x mod 2] post js again E S eq_refl (positions c) _ N6 (eq_trans L6 LZ) (FW _ FP)), obind_oret.
  unfold sub at 1. rewrite J8, olift_ok, obind_oret. rewrite (fold_numbers c p s r again _ S LZ). reflexivity.
Qed.
End Load.
