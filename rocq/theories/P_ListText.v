(** Texts of lists and matrices (C105, C106). *)
From Verif Require Import L_Base M_Data M_Numeric M_Class M_Var M_Real M_Complex M_List M_Text S_Data L_Data S_Var L_Var S_Real L_Real L_Frac L_Radical P_Real S_Complex L_Complex L_Kinds P_Kinds L_Pi P_Text P_Var S_List L_List P_List.

(** ** C105, C106: texts of lists and matrices *)
(** A text without spaces, commas and brackets. *)
Definition safe (t : str) : Prop := t <> [] /\ forall c, In c t -> is_space c = false /\ ~ In c (s2l ",[]{}").
Lemma joined_cons sep t u r : joined sep (t :: u :: r) = t ++ sep ++ joined sep (u :: r).
Proof. reflexivity. Qed.
Lemma lstrip_safe cs s : (forall c, In c s -> ~ In c cs) -> lstrip cs s = s.
Proof.
  destruct s as [|c s]; [reflexivity|]. intros H. cbn [lstrip]. destruct (memb c cs) eqn:E; [|reflexivity].
  apply memb_spec in E. exfalso. apply (H c); [now left|exact E].
Qed.
Lemma strip_brackets s : (forall c, In c s -> ~ In c (s2l "[]{}")) -> strip (s2l "[]{}") (s2l "[" ++ s ++ s2l "]") = s.
Proof.
  intros H. unfold strip, rstrip. change (s2l "[" ++ s ++ s2l "]") with (91 :: s ++ s2l "]"). cbn [lstrip].
  change (memb 91 (s2l "[]{}")) with true. cbv iota. destruct s as [|c s]; [reflexivity|].
  assert (M : memb c (s2l "[]{}") = false) by (destruct (memb c (s2l "[]{}")) eqn:E; [apply memb_spec in E; exfalso; apply (H c); [now left|exact E]|reflexivity]).
  change ((c :: s) ++ s2l "]") with (c :: s ++ s2l "]"). cbn [lstrip]. rewrite M. change (c :: s ++ s2l "]") with ((c :: s) ++ s2l "]"). rewrite rev_app_distr. change (rev (s2l "]")) with [93]. cbn [app lstrip].
  change (memb 93 (s2l "[]{}")) with true. cbv iota. rewrite lstrip_safe; [apply rev_involutive|]. intros x I. apply H. now apply in_rev.
Qed.
Lemma in_joined c sep ts : In c (joined sep ts) -> In c sep \/ exists t, In t ts /\ In c t.
Proof.
  induction ts as [|t [|u r] IH]; [intros []| |].
  - intros I. right. exists t. split; [now left|exact I].
  - rewrite joined_cons. intros I. apply in_app_or in I as [I|I]; [right; exists t; split; [now left|exact I]|].
    apply in_app_or in I as [I|I]; [now left|]. destruct (IH I) as [J|(v & J & K)]; [now left|right; exists v; split; [now right|exact K]].
Qed.
Lemma safe_no c t : safe t -> In c (s2l ",[]{}") -> ~ In c t.
Proof. intros [_ H] I J. now apply (H c J). Qed.
Lemma split_joined sep t r : (forall c, In c sep -> c <> 44) -> Forall safe (t :: r) ->
  split_on 44 (joined (44 :: sep) (t :: r)) = t :: map (app sep) r.
Proof.
  intros NS. revert t. induction r as [|u r IH]; intros t F; apply Forall_cons_iff in F as [S F].
  - cbn [joined map]. apply split_on_none. apply (safe_no 44 t S). now left.
  - rewrite joined_cons. change (t ++ (44 :: sep) ++ joined (44 :: sep) (u :: r)) with (t ++ 44 :: (sep ++ joined (44 :: sep) (u :: r))).
    rewrite split_on_app by (apply (safe_no 44 t S); now left). f_equal.
    specialize (IH u F). cbn [map]. clear - NS IH. induction sep as [|c q IHq]; [exact IH|].
    cbn [app]. cbn [split_on]. replace (c =? 44) with false by (specialize (NS c (or_introl eq_refl)); lia).
    assert (G : split_on 44 (q ++ joined (44 :: c :: q) (u :: r)) = (q ++ u) :: map (app (c :: q)) r); [|rewrite G; reflexivity].
    clear IHq. assert (G : forall w, (forall x, In x w -> x <> 44) -> split_on 44 (w ++ joined (44 :: c :: q) (u :: r)) = (w ++ u) :: map (app (c :: q)) r).
    { induction w as [|x w IHw]; intros NW; [exact IH|]. cbn [app split_on]. replace (x =? 44) with false by (specialize (NW x (or_introl eq_refl)); lia).
      rewrite IHw by (intros y Y; apply NW; now right). reflexivity. }
    apply G. intros x X. apply NS. now right.
Qed.
Theorem C105_pieces : forall t r, Forall safe (t :: r) -> list_pieces (list_show (t :: r)) = t :: map (cons 32) r.
Proof.
  intros t r F. unfold list_pieces, list_show. rewrite strip_brackets.
  - change (s2l ", ") with [44; 32]. rewrite (split_joined [32]) by (auto; intros c [<-|[]]; lia). reflexivity.
  - intros c I. apply in_joined in I as [I|(u & J & K)].
    + intros J. cbn in I, J. lia.
    + rewrite Forall_forall in F. destruct (F u J) as [_ H]. destruct (H c K) as [_ N]. intros Q. apply N. now right.
Qed.
Print Assumptions C105_pieces.
(** Rows of a matrix. *)
Lemma split_sub_none c sep s : ~ In c s -> split_sub (c :: sep) s = [s].
Proof.
  unfold split_sub. induction s as [|x s IH]; intros N; [reflexivity|]. cbn [split_sub_aux starts_with].
  replace (c =? x) with false by (destruct (Z.eqb_spec c x); [subst; exfalso; apply N; now left|reflexivity]). cbn [andb].
  rewrite IH by (intros I; apply N; now right). reflexivity.
Qed.
Lemma split_sub_skip sep k s : (k <= length s)%nat -> split_sub_aux sep k s = split_sub_aux sep 0 (skipn k s).
Proof.
  revert s; induction k as [|k IH]; intros s L; [reflexivity|]. destruct s as [|c s]; [cbn in L; lia|]. cbn [split_sub_aux skipn]. apply IH. cbn in L. lia.
Qed.
Lemma split_sub_app c sep a s : ~ In c a -> split_sub (c :: sep) (a ++ (c :: sep) ++ s) = a :: split_sub (c :: sep) s.
Proof.
  unfold split_sub. induction a as [|x a IH]; intros N.
  - cbn [app]. change (c :: sep ++ s) with ((c :: sep) ++ s). cbn [app split_sub_aux]. change (c :: sep ++ s) with ((c :: sep) ++ s). rewrite starts_with_app.
    f_equal. cbn [length pred]. rewrite split_sub_skip by (rewrite app_length; lia). f_equal. now apply skipn_app_exact.
  - cbn [app split_sub_aux starts_with]. replace (c =? x) with false by (destruct (Z.eqb_spec c x); [subst; exfalso; apply N; now left|reflexivity]). cbn [andb].
    assert (G := IH (fun I => N (or_intror I))). cbn [app] in G. rewrite G. reflexivity.
Qed.

(** The rows of the text of a matrix, squashed and without the outer brackets. *)
Lemma squash_app a b : squash (a ++ b) = squash a ++ squash b.
Proof. unfold squash. apply filter_app. Qed.
Definition row_text (r : list str) : str := joined [44] r.
Fixpoint rows_body (sep : str) (r : list str) (rs : list (list str)) : str :=
  row_text r ++ match rs with [] => [93] | r' :: rs' => sep ++ rows_body sep r' rs' end.
Lemma safe_squash t : safe t -> squash t = t.
Proof.
  intros [_ H]. unfold squash. induction t as [|c t IH]; [reflexivity|]. cbn [filter]. rewrite (proj1 (H c (or_introl eq_refl))). cbn [negb].
  f_equal. apply IH. intros x X. apply H. now right.
Qed.
Lemma squash_row r : Forall safe r -> squash (list_show r) = 91 :: row_text r ++ [93].
Proof.
  intros F. unfold list_show. rewrite !squash_app. change (squash (s2l "[")) with [91]. change (squash (s2l "]")) with [93]. cbn [app]. do 2 f_equal.
  unfold row_text. induction r as [|t [|u q] IH]; [reflexivity| |].
  - apply Forall_inv in F. now apply safe_squash.
  - apply Forall_cons_iff in F as [S F]. rewrite !joined_cons, !squash_app, (safe_squash t S), (IH F). reflexivity.
Qed.
Lemma squash_rows r rs : Forall (Forall safe) (r :: rs) -> squash (matrix_show (r :: rs)) = 91 :: 91 :: rows_body [93; 44; 91] r rs ++ [93].
Proof.
  intros F. unfold matrix_show. unfold list_show at 1. rewrite !squash_app. change (squash (s2l "[")) with [91]. change (squash (s2l "]")) with [93]. cbn [app]. f_equal.
  change (91 :: rows_body [93; 44; 91] r rs ++ [93]) with ((91 :: rows_body [93; 44; 91] r rs) ++ [93]). f_equal.
  revert r F. induction rs as [|q rs IH]; intros r F; apply Forall_cons_iff in F as [S F]; cbn [map rows_body].
  - cbn [joined]. now apply squash_row.
  - rewrite joined_cons, !squash_app, (squash_row r S). cbn [map] in IH. rewrite (IH q F). cbn [app]. f_equal. rewrite <- app_assoc. reflexivity.
Qed.
Lemma row_no c r : Forall safe r -> In c (s2l "[]") -> ~ In c (row_text r).
Proof.
  intros F I J. apply in_joined in J as [[<-|[]]|(t & T & K)].
  - cbn in I. lia.
  - rewrite Forall_forall in F. apply (safe_no c t (F t T)); [|exact K]. cbn in I |- *. lia.
Qed.
Lemma replace_body r rs : Forall (Forall safe) (r :: rs) -> str_replace [93; 44; 91] [93; 91] (rows_body [93; 44; 91] r rs) = rows_body [93; 91] r rs.
Proof.
  revert r. induction rs as [|q rs IH]; intros r F; apply Forall_cons_iff in F as [S F]; cbn [rows_body].
  - rewrite str_replace_app by (apply row_no; [exact S|cbn; lia]). reflexivity.
  - rewrite str_replace_app by (apply row_no; [exact S|cbn; lia]). rewrite str_replace_hit, (IH q F). reflexivity.
Qed.
Fixpoint row_pieces (r : list str) (rs : list (list str)) : list str :=
  match rs with [] => [row_text r ++ [93]] | r' :: rs' => row_text r :: row_pieces r' rs' end.
Lemma split_body r rs p : Forall (Forall safe) (r :: rs) -> ~ In 93 p ->
  split_sub [93; 91] (p ++ rows_body [93; 91] r rs) = match row_pieces r rs with x :: q => (p ++ x) :: q | [] => [] end.
Proof.
  revert r p. induction rs as [|q rs IH]; intros r p F N; apply Forall_cons_iff in F as [S F]; cbn [rows_body row_pieces].
  - assert (NR : ~ In 93 (p ++ row_text r)) by (intros I; apply in_app_or in I as [I|I]; [now apply N|revert I; apply row_no; [exact S|cbn; lia]]).
    rewrite app_assoc. revert NR. generalize (p ++ row_text r). clear. intros w. unfold split_sub. induction w as [|c w IHw]; intros N; [reflexivity|].
    cbn [app split_sub_aux starts_with]. replace (93 =? c) with false by (destruct (Z.eqb_spec 93 c); [subst; exfalso; apply N; now left|reflexivity]). cbn [andb].
    rewrite IHw by (intros I; apply N; now right). reflexivity.
  - assert (NR : ~ In 93 (p ++ row_text r)) by (intros I; apply in_app_or in I as [I|I]; [now apply N|revert I; apply row_no; [exact S|cbn; lia]]).
    rewrite app_assoc. rewrite (split_sub_app 93 [91]) by exact NR. f_equal.
    assert (G := IH q [] F (fun x => x)). cbn [app] in G. rewrite G. now destruct (row_pieces q rs).
Qed.
Definition unbracket (s : str) : str := replacer s [(s2l "[", []); (s2l "]", [])].
Lemma unbracket_eq s : unbracket s = str_replace [93] [] (str_replace [91] [] s).
Proof. reflexivity. Qed.
Lemma unbracket_row p q r : Forall safe r -> (p = [] \/ p = [91]) -> (q = [] \/ q = [93]) -> unbracket (p ++ row_text r ++ q) = row_text r.
Proof.
  intros F P Q. rewrite unbracket_eq, !replace1_app.
  rewrite (str_replace_none 91 _ _ (row_text r)) by (apply row_no; [exact F|cbn; lia]).
  rewrite (str_replace_none 93 _ _ (row_text r)) by (apply row_no; [exact F|cbn; lia]).
  destruct P as [->| ->], Q as [->| ->]; cbn; now rewrite app_nil_r.
Qed.
Lemma split_row r : r <> [] -> Forall safe r -> split_on 44 (row_text r) = r.
Proof.
  destruct r as [|t r]; [congruence|]. intros _ F. unfold row_text. rewrite (split_joined []) by (auto; intros c []). f_equal. apply map_id.
Qed.
Theorem C106_pieces : forall rows, rows <> [] -> Forall (fun r => r <> []) rows -> Forall (Forall safe) rows ->
  matrix_pieces (matrix_show rows) = rows.
Proof.
  intros [|r rs] N E F; [congruence|]. clear N. unfold matrix_pieces. rewrite (squash_rows r rs F).
  assert (I : inner (91 :: 91 :: rows_body [93; 44; 91] r rs ++ [93]) = [91] ++ rows_body [93; 44; 91] r rs).
  { unfold inner. cbn [skipn]. change (91 :: rows_body [93; 44; 91] r rs ++ [93]) with ((91 :: rows_body [93; 44; 91] r rs) ++ [93]). now rewrite removelast_last. }
  rewrite I. change (s2l "],[") with [93; 44; 91]. change (s2l "][") with [93; 91].
  rewrite str_replace_app by (cbn; lia). rewrite (replace_body r rs F), (split_body r rs [91] F) by (cbn; lia).
  fold unbracket.
  assert (G : forall rs r, Forall (fun r => r <> []) (r :: rs) -> Forall (Forall safe) (r :: rs) ->
    forall p, (p = [] \/ p = [91]) -> map (fun row => split_on 44 (unbracket row)) (match row_pieces r rs with x :: q => (p ++ x) :: q | [] => [] end) = r :: rs).
  { clear. induction rs as [|q rs IH]; intros r E F p P; apply Forall_cons_iff in F as [S F]; apply Forall_cons_iff in E as [E0 E]; cbn [row_pieces map].
    - rewrite unbracket_row by auto. now rewrite split_row.
    - rewrite <- (app_nil_r (row_text r)). rewrite unbracket_row by auto. rewrite split_row by auto. f_equal.
      assert (G := IH q E F [] (or_introl eq_refl)). cbn [app] in G. etransitivity; [|exact G]. now destruct (row_pieces q rs). }
  apply (G rs r E F). now right.
Qed.
Print Assumptions C106_pieces.

(** *** Elements *)
(** An element [c], [d] prints a text which, alone or after a space, is read as
    [c'], [d']. *)
Definition rereads (fp : str -> result (Z * Z)) (x y : cls * bytes) : Prop :=
  exists t, real_text (fst x) (Buf true (snd x)) = Ok t /\ safe t /\
    (forall sp, sp = [] \/ sp = [32] -> exists b, real_of_text fp (sp ++ t) = Ok (Real (fst y) b) /\ b_data b = snd y) /\
    real_payload (fst y) (snd y).
Lemma real_text_data c b : real_text c b = real_text c (Buf true (b_data b)).
Proof. destruct b as [m d], c; reflexivity. Qed.
Definition entry_rereads fp (x : entry) (y : cls * bytes) : Prop := rereads fp (e_cls x, calc_data x) y.
Lemma texts_rereads fp zs ys : Forall2 (entry_rereads fp) zs ys ->
  exists ts, texts_of zs = Ok ts /\ Forall safe ts /\ length ts = length zs /\
    Forall2 (fun t y => forall sp, sp = [] \/ sp = [32] -> exists b, real_of_text fp (sp ++ t) = Ok (Real (fst y) b) /\ b_data b = snd y) ts ys /\
    Forall (fun y => real_payload (fst y) (snd y)) ys.
Proof.
  intros R. induction R as [|e y zs ys (t & T & S & G & P) R IH].
  - exists []. repeat split; constructor.
  - destruct IH as (ts & E & F & L & H & Q). exists (t :: ts). cbn [fst snd] in T. cbn [texts_of]. rewrite real_text_data. unfold calc_data in T. rewrite T. cbn [rbind].
    rewrite E. cbn [rbind]. split; [reflexivity|]. split; [now constructor|]. split; [cbn [length]; lia|]. split; now constructor.
Qed.
Lemma text_elems ns ps fp ts ys : names_ok ns ->
  Forall2 (fun t y => exists b, real_of_text fp t = Ok (Real (fst y) b) /\ b_data b = snd y) ts ys ->
  Forall (fun y => real_payload (fst y) (snd y)) ys ->
  exists es, omapM (text_elem ns ps fp) ts = oret es /\ Forall2 (fun y (e : entry) => e_cls e = fst y /\ calc_data e = snd y) ys es.
Proof.
  intros N H. induction H as [|t y ts ys (b & T & D) H IH]; intros P; [exists []; split; [reflexivity|constructor]|].
  apply Forall_cons_iff in P as [P PS]. destruct (IH PS) as (es & E & F). destruct (elem_new_real ns ps N (fst y) (snd y) P) as (e & X & C & Dt & _).
  exists (e :: es). split; [|now constructor]. cbn [omapM]. unfold text_elem at 1. rewrite T. unfold olift.
  change (([] : list warning, Ok (Real (fst y) b))) with (oret (Real (fst y) b)). rewrite obind_oret. cbn [r_buf]. rewrite D, X, obind_oret, E, obind_oret. reflexivity.
Qed.
Lemma Forall2_len {A B} (R : A -> B -> Prop) l m : Forall2 R l m -> length l = length m.
Proof. induction 1; cbn [length]; lia. Qed.
Lemma olift_ok {A} (a : A) : olift (Ok a) = oret a.
Proof. reflexivity. Qed.
Lemma data_of_elems ys es : Forall2 (fun (y : cls * bytes) (e : entry) => e_cls e = fst y /\ calc_data e = snd y) ys es -> map calc_data es = map snd ys /\ map e_cls es = map fst ys.
Proof. induction 1 as [|y e ys es [C D] H [I J]]; [split; reflexivity|]. cbn [map]. split; congruence. Qed.
(** Every list of elements that are read back as [ys] prints a text that loads as
    the list of [ys], in order. *)
Theorem C105_list : forall ns ps fp e zs ys e0 D, names_ok ns -> list_elems ns ps e = oret zs -> zs <> [] -> zlen zs < 65536 ->
  Forall2 (entry_rereads fp) zs ys ->
  e_cls e0 = KRealList -> flash_entry e0 -> e_data e0 = Buf true D -> (2 <= length D)%nat ->
  exists s e1 es, list_text ns ps e = oret s /\
    list_load_string ns ps fp s e0 = (if 999 <? zlen zs then [WListLength] else [], Ok e1) /\
    list_elems ns ps e1 = oret es /\ map e_cls es = map fst ys /\ map calc_data es = map snd ys /\
    list_length e1 = zlen zs /\ data e1 = concat (map snd ys) /\ e_cls e1 = KRealList.
Proof.
  intros ns ps fp e zs ys e0 D N E NE Z R K FE ED LD. destruct (texts_rereads fp zs ys R) as (ts & T & S & L & H & P).
  destruct ts as [|t ts]; [destruct zs; [congruence|discriminate L]|].
  assert (X : exists es, omapM (text_elem ns ps fp) (list_pieces (list_show (t :: ts))) = oret es /\ Forall2 (fun y (e : entry) => e_cls e = fst y /\ calc_data e = snd y) ys es).
  { rewrite (C105_pieces t ts S). apply text_elems; auto. inversion H as [|? y ? ys' H0 H1]; subst. constructor; [apply (H0 []); now left|].
    clear - H1. induction H1 as [|t y ts ys G H IH]; [constructor|]. cbn [map]. constructor; [apply (G [32]); now right|exact IH]. }
  destruct X as (es & X & F). destruct (data_of_elems ys es F) as [DD DC].
  assert (LZ : zlen es = zlen zs) by (unfold zlen; rewrite <- (map_length calc_data es), DD, map_length; f_equal; apply Forall2_len in R; lia).
  destruct (C36_roundtrip ns ps e0 D es N) as (e1 & es' & Q1 & Q2 & Q3 & Q4 & Q5 & Q6 & Q7 & Q8 & Q9); auto; [rewrite K; now left|lia| |].
  { intros x I. rewrite K. cbn [payload_for]. apply List.in_split in I as (u & v & ->). clear - F P. apply Forall2_app_inv_r in F as (y1 & y2 & F1 & F2 & ->).
    inversion F2 as [|y ? y3 ? [C D] F3]; subst. rewrite Forall_app in P. destruct P as [_ P]. apply Forall_inv in P. now rewrite C, D. }
  exists (list_show (t :: ts)), e1, es'. split; [unfold list_text; rewrite E, obind_oret, T, olift_ok, obind_oret; reflexivity|].
  split; [unfold list_load_string; rewrite X, obind_oret, Q1, LZ; reflexivity|]. split; [exact Q2|].
  assert (G : map e_cls es' = map e_cls es /\ map calc_data es' = map calc_data es).
  { clear - Q3. induction Q3 as [|x y l l' [A B] Q [I J]]; [split; reflexivity|]. cbn [map]. split; congruence. }
  destruct G as [G1 G2]. split; [congruence|]. split; [congruence|]. split; [lia|]. split; [rewrite Q5; congruence|congruence].
Qed.
Print Assumptions C105_list.
(** The same of matrices. *)
Lemma rows_rereads fp m ys : Forall2 (Forall2 (entry_rereads fp)) m ys ->
  exists ts, rows_of m = Ok ts /\ Forall (Forall safe) ts /\ map (@length str) ts = map (@length entry) m /\
    Forall2 (Forall2 (fun t y => exists b, real_of_text fp t = Ok (Real (fst y) b) /\ b_data b = snd y)) ts ys /\
    Forall (Forall (fun y => real_payload (fst y) (snd y))) ys.
Proof.
  induction 1 as [|r y m ys R H (ts & E & F & L & G & P)]; [exists []; repeat split; constructor|].
  destruct (texts_rereads fp r y R) as (t & T & S & L0 & Q & P0). exists (t :: ts). cbn [rows_of]. rewrite T. cbn [rbind]. rewrite E. cbn [rbind].
  split; [reflexivity|]. split; [now constructor|]. split; [cbn [map]; congruence|]. split; [|now constructor]. constructor; [|exact G].
  clear - Q. induction Q as [|t y ts ys X Q IH]; constructor; [apply (X []); now left|exact IH].
Qed.
Lemma text_rows ns ps fp ts ys : names_ok ns ->
  Forall2 (Forall2 (fun t y => exists b, real_of_text fp t = Ok (Real (fst y) b) /\ b_data b = snd y)) ts ys ->
  Forall (Forall (fun y => real_payload (fst y) (snd y))) ys ->
  exists es, omapM (omapM (text_elem ns ps fp)) ts = oret es /\ Forall2 (Forall2 (fun y (e : entry) => e_cls e = fst y /\ calc_data e = snd y)) ys es.
Proof.
  intros N H. induction H as [|t y ts ys R H IH]; intros P; [exists []; split; [reflexivity|constructor]|].
  apply Forall_cons_iff in P as [P PS]. destruct (IH PS) as (es & E & F). destruct (text_elems ns ps fp t y N R P) as (e & X & G).
  exists (e :: es). split; [|now constructor]. cbn [omapM]. rewrite X, obind_oret, E, obind_oret. reflexivity.
Qed.
Lemma rows_data ys es : Forall2 (Forall2 (fun (y : cls * bytes) (e : entry) => e_cls e = fst y /\ calc_data e = snd y)) ys es ->
  map (map calc_data) es = map (map snd) ys /\ map (map e_cls) es = map (map fst) ys.
Proof. induction 1 as [|y e ys es R H [I J]]; [split; reflexivity|]. destruct (data_of_elems y e R) as [A B]. cbn [map]. split; congruence. Qed.
Theorem C106_matrix : forall ns ps fp e m w ys e0 a b D, names_ok ns -> matrix_rows ns ps e = oret m -> m <> [] -> rectangular w m -> 1 <= w <= 255 -> zlen m <= 255 ->
  Forall2 (Forall2 (entry_rereads fp)) m ys ->
  e_cls e0 = KMatrix -> flash_entry e0 -> e_data e0 = Buf true (a :: b :: D) -> is_byte b ->
  exists s e1 ws rows, matrix_text ns ps e = oret s /\
    matrix_load_string ns ps fp s e0 = (ws, Ok e1) /\ matrix_rows ns ps e1 = oret rows /\
    map (map e_cls) rows = map (map fst) ys /\ map (map calc_data) rows = map (map snd) ys /\
    width e1 = w /\ height e1 = zlen m /\ calc_data e1 = [w; zlen m] ++ concat (map (fun r => concat (map snd r)) ys) /\ e_cls e1 = KMatrix.
Proof.
  intros ns ps fp e m w ys e0 a b D N E NE RW HW HH R K FE ED Bb. destruct (rows_rereads fp m ys R) as (ts & T & S & L & H & P).
  assert (RL : Forall (fun r => length r <> 0%nat) m) by (eapply Forall_impl; [|exact RW]; intros r Q; unfold zlen in Q; lia).
  assert (TL : ts <> [] /\ Forall (fun r => r <> []) ts).
  { split; [destruct m; [congruence|]; destruct ts; [discriminate L|discriminate]|]. clear - L RL. revert m L RL.
    induction ts as [|t ts IH]; intros m L RL; constructor; destruct m as [|r m]; try discriminate L; injection L as L0 L; apply Forall_cons_iff in RL as [R0 RL].
    - intros ->. cbn in L0. lia.
    - now apply (IH m). }
  destruct TL as [TN TE]. destruct (text_rows ns ps fp ts ys N H P) as (es & X & F). destruct (rows_data ys es F) as [DD DC].
  assert (LM : forall f : entry -> bytes, True) by auto. clear LM.
  assert (LE : map (@length entry) es = map (@length entry) m).
  { clear - F R. revert m R. induction F as [|y e ys es G F IH]; intros m R; inversion R as [|r ? m' ? R0 R1]; subst; [reflexivity|]. cbn [map]. f_equal; [|now apply IH].
    apply Forall2_len in G, R0. congruence. }
  assert (ZE : zlen es = zlen m) by (unfold zlen; rewrite <- (map_length (@length entry) es), LE, map_length; reflexivity).
  assert (RE : rectangular w es).
  { unfold rectangular in *. clear - LE RW. revert es LE. induction RW as [|r m Q RW IH]; intros [|r' es] LE; try discriminate LE; constructor; injection LE as L0 LE; [unfold zlen in *; lia|now apply IH]. }
  assert (PE : Forall (Forall (fun x => real_payload (e_cls x) (calc_data x))) es).
  { clear - F P. induction F as [|y e ys es G F IH]; constructor; apply Forall_cons_iff in P as [P0 P]; [|now apply IH]. clear - G P0.
    induction G as [|y e ys es [C D] F IH]; constructor; apply Forall_cons_iff in P0 as [P0 P]; [now rewrite C, D|now apply IH]. }
  destruct (C37_roundtrip ns ps e0 a b D es w N K FE ED Bb) as (e1 & rows & Q1 & Q2 & Q3 & Q4 & Q5 & Q6 & Q7 & Q8 & Q9); auto; [destruct es; [destruct m; [congruence|discriminate LE]|discriminate]|lia|].
  exists (matrix_show ts), e1. eexists. exists rows. split; [unfold matrix_text; rewrite E, obind_oret, T, olift_ok, obind_oret; reflexivity|].
  split; [unfold matrix_load_string; rewrite (C106_pieces ts TN TE S), X, obind_oret, Q1; reflexivity|]. split; [exact Q2|].
  assert (G : map (map e_cls) rows = map (map e_cls) es /\ map (map calc_data) rows = map (map calc_data) es).
  { clear - Q3. induction Q3 as [|x y l l' A Q [I J]]; [split; reflexivity|]. cbn [map]. assert (G : map e_cls y = map e_cls x /\ map calc_data y = map calc_data x).
    { clear - A. induction A as [|x y l l' [A B] Q [I J]]; [split; reflexivity|]. cbn [map]. split; congruence. } destruct G. split; congruence. }
  destruct G as [G1 G2]. split; [congruence|]. split; [congruence|]. split; [exact Q4|]. split; [lia|]. split; [|exact Q8].
  rewrite Q7, ZE. do 3 f_equal. rewrite <- (map_map (map calc_data) (@concat Z)), DD, map_map. reflexivity.
Qed.
Print Assumptions C106_matrix.

(** *** What each kind of number is read back as *)
Lemma try_refused fp s i c l : issubclass c KRealEntry = false \/ (exists w e, real_new fp c s = (w, Err e)) -> try_reals fp ((i, c) :: l) s = try_reals fp l s.
Proof. intros H. cbn [try_reals]. destruct (issubclass c KRealEntry); [|reflexivity]. destruct H as [H|(w & e & ->)]; [discriminate H|reflexivity]. Qed.
Lemma try_accepted fp s i c l x : issubclass c KRealEntry = true -> snd (real_new fp c s) = Ok x -> try_reals fp ((i, c) :: l) s = Ok x.
Proof. intros H E. cbn [try_reals]. now rewrite H, E. Qed.
Lemma first_reads fp s pre c post x : real_order = pre ++ c :: post -> (forall k, In k pre -> exists w e, real_new fp k s = (w, Err e)) ->
  snd (real_new fp c s) = Ok x -> real_of_text fp s = Ok x.
Proof.
  intros O R E. unfold real_of_text, registry. rewrite try_refused by (left; reflexivity). unfold real_order in O.
  do 6 (destruct pre as [|? pre]; [injection O as <- _; apply try_accepted; [reflexivity|exact E]|injection O as <- O; rewrite try_refused by (right; apply R; now left);
     assert (R' := fun k I => R k (or_intror I)); clear R; rename R' into R]).
  destruct pre; discriminate O.
Qed.
Lemma refused_err fp c p : refuses fp c p -> exists w e, real_new fp c p = (w, Err e).
Proof. intros (w & x & E & _). eauto. Qed.
Lemma payload_of_stored c c0 neg x m : is_byte (c0 + 128) -> 0 <= c0 -> is_byte x -> 0 <= m < 10 ^ 14 -> In (c0 mod 64, c) real_kinds -> real_payload c (b_data (stored c0 neg x m)).
Proof.
  intros B0 B1 X M I. unfold is_byte in B0. destruct (stored_fields c0 neg x m) as [L W]; auto; [unfold is_byte; lia|].
  split; [exact L|]. split; [exact W|]. replace (nth 0 (b_data (stored c0 neg x m)) 0 mod 64) with (c0 mod 64); [exact I|].
  unfold stored. cbn [b_data nth]. destruct neg; lia.
Qed.
(** Decimal texts, perhaps after a space. *)
Lemma real_load_space s b : s <> [] -> real_load (32 :: s) b = real_load s b.
Proof. intros N. unfold real_load, real_parse. destruct s as [|c s]; [congruence|]. reflexivity. Qed.
Lemma new_real fp c s t b : type_id_of c = Some t -> set_bits_at (Some 9) 0 0 6 t (Buf true (zeros 9)) = oret (Buf true (t :: zeros 8)) ->
  part_load fp c s (Buf true (t :: zeros 8)) = (b, oret tt) -> snd (real_new fp c s) = Ok (Real c b).
Proof. intros T S P. unfold real_new, real_fresh. rewrite T, S, obind_oret, P. reflexivity. Qed.
Lemma new_refused fp c s t b w x : type_id_of c = Some t -> set_bits_at (Some 9) 0 0 6 t (Buf true (zeros 9)) = oret (Buf true (t :: zeros 8)) ->
  part_load fp c s (Buf true (t :: zeros 8)) = (b, (w, Err x)) -> exists w e, real_new fp c s = (w, Err e).
Proof. intros T S P. unfold real_new, real_fresh. rewrite T, S, obind_oret, P. eauto. Qed.
Lemma lit_chars l c : lit_wf l -> l_exp l = None -> l_sign l = [] \/ l_sign l = s2l "-" -> In c (lit_text l) -> c = 45 \/ c = 46 \/ 48 <= c <= 57.
Proof.
  intros (_ & W1 & W2 & _) E S I. unfold lit_text in I. rewrite E, app_nil_r in I.
  assert (T : forall ds, Forall digit ds -> In c (text_of ds) -> 48 <= c <= 57).
  { intros ds F J. unfold text_of in J. apply in_map_iff in J as (d & <- & J). rewrite Forall_forall in F. specialize (F d J). unfold digit in F. lia. }
  apply in_app_or in I as [I|I]; [destruct S as [S|S]; rewrite S in I; cbn in I; lia|].
  apply in_app_or in I as [I|I]; [right; right; now apply (T (l_int l))|].
  unfold frac_digits in W2. destruct (l_frac l) as [f|]; [|destruct I]. apply in_app_or in I as [I|I]; [cbn in I; lia|right; right; now apply (T f)].
Qed.
Lemma plain_chars t : t <> [] -> (forall c, In c t -> c = 45 \/ 46 <= c <= 57 \/ 0 = 1) -> safe t.
Proof.
  intros N H. split; [exact N|]. intros c I. specialize (H c I). split; [unfold is_space; lia|]. intros J. cbn in J. lia.
Qed.
Lemma decimal_text low neg x m d : stored_real low neg x m d -> short x m ->
  exists t, real_string (Buf true d) = Ok t /\ t <> [] /\ (forall c, In c t -> c = 45 \/ c = 46 \/ 48 <= c <= 57) /\
    forall c0 c1 r, is_byte c0 -> length r = 7%nat -> real_load t (Buf true (c0 :: c1 :: r)) = (stored c0 neg x m, oret tt).
Proof.
  intros (HL & P & X & M) Sh. assert (BL : is_byte low) by (unfold is_byte; lia). destruct M as [M|(-> & -> & ->)].
  - apply payload_stored in P; [|lia|lia]. assert (PB : Buf true d = stored low neg x m) by (rewrite P; reflexivity). rewrite PB.
    destruct (real_string_stored low neg x m BL X ltac:(lia)) as (l & W & N & S & Sq & V & SG & NI & NX).
    exists (lit_text l). split; [exact S|]. assert (SG' : l_sign l = [] \/ l_sign l = s2l "-") by (rewrite SG; destruct neg; auto).
    split; [|split; [intros c; now apply lit_chars|]].
    + unfold lit_text. destruct (l_int l); [congruence|]. destruct (l_sign l); discriminate.
    + intros c0 c1 r B0 Lr. destruct (real_reload low neg x m c0 c1 r BL X M B0 Lr) as (s & S' & R). rewrite S in S'. injection S' as <-. now apply R.
  - apply payload_stored in P; [|lia|lia]. assert (PB : Buf true d = stored low false 128 0) by (rewrite P; reflexivity). rewrite PB.
    exists (s2l "0"). split; [now apply real_string_zero|]. split; [discriminate|]. split; [intros c I; cbn in I; lia|].
    intros c0 c1 r B0 Lr. destruct (real_load_spec (Lit [] [0] None None) (s2l "0") c0 c1 r) as [R _]; auto.
    { unfold lit_wf. cbn. repeat apply conj; auto. constructor; [unfold digit; lia|constructor]. }
Qed.
(** A decimal number with at most 14 decimal places is read back as the same
    number; an undefined number becomes an ordinary one. *)
Theorem C105_decimal : forall fp c low neg x m d, stored_real low neg x m d -> short x m -> c = KReal \/ c = KUndefReal ->
  exists d', rereads fp (c, d) (KReal, d') /\ payload 0 neg x m d' /\ (low = 0 -> d' = d).
Proof.
  intros fp c low neg x m d SR Sh C. destruct (decimal_text low neg x m d SR Sh) as (t & T & N & CH & R). exists (b_data (stored 0 neg x m)).
  assert (MM : 0 <= m < 10 ^ 14) by (destruct SR as (_ & _ & _ & [?|(-> & _)]); lia). destruct SR as (HL & P & X & _).
  split; [|split; [change 0 with (0 mod 128) at 1; now apply stored_payload|intros ->; symmetry; now apply payload_stored]].
  exists t. cbn [fst snd]. split; [destruct C as [-> | ->]; exact T|]. split; [apply plain_chars; [exact N|intros c1 I; specialize (CH c1 I); lia]|].
  split; [|apply payload_of_stored; auto; try (unfold is_byte; lia); now left].
  intros sp S. exists (stored 0 neg x m). split; [|reflexivity]. apply (first_reads fp _ [] KReal (tl real_order)); [reflexivity|intros k []|].
  apply (new_real fp KReal _ 0); [reflexivity|reflexivity|]. cbn [part_load].
  destruct S as [-> | ->]; [|change ([32] ++ t) with (32 :: t); rewrite real_load_space by exact N]; apply R; try reflexivity; unfold is_byte; lia.
Qed.
Print Assumptions C105_decimal.
(** What is assumed of Python's [Fraction(text)] besides: a root or pi sign is an
    error. *)
Definition refuses_signs (fp : str -> result (Z * Z)) : Prop := forall s, In 960 s \/ In 8730 s -> exists x, fp s = Err x /\ (x = TypeError \/ x = ValueError).
Lemma load_fraction_stored n d c0 c1 r b : 1 <= d <= 10000 -> Z.gcd n d = 1 -> Z.abs n < 10 ^ 5 * d -> is_byte c0 -> length r = 7%nat ->
  load_fraction n d (Buf true (c0 :: c1 :: r)) = (b, oret tt) -> exists neg x m, b = stored c0 neg x m /\ is_byte x /\ 0 <= m < 10 ^ 14.
Proof.
  intros D G B B0 Lr. unfold load_fraction.
  assert (C : 0 <= d_coef (dec_div n d)).
  { destruct (Z.eq_dec n 0) as [->|Nn]; [assert (d = 1) as -> by (rewrite Z.gcd_0_l in G; lia); vm_compute; discriminate|].
    destruct (dec_div_rel n d Nn ltac:(lia) ltac:(lia)) as (c & e & E & C & _). rewrite E. cbn [d_coef]. lia. }
  destruct (dec_str_literal (dec_div n d) C) as (l & WL & T & Sq & _). rewrite T in *.
  destruct (real_load_spec l (lit_text l) c0 c1 r WL Sq Lr B0) as [R0 R1]. destruct (Z.eq_dec (lit_coef l) 0) as [Z0|NZ].
  - rewrite (R0 Z0). intros E. injection E as <-. exists (lit_neg l), 128, 0. split; [reflexivity|]. unfold is_byte. split; lia.
  - destruct (R1 NZ) as (m & x & TR & R). rewrite R. destruct (is_byteb x) eqn:BX; [|discriminate]. apply is_byteb_spec in BX.
    intros E. injection E as <-. exists (lit_neg l), x, m. split; [reflexivity|]. split; [exact BX|]. destruct TR as [TM _]. lia.
Qed.
Lemma in_sp (c : Z) sp t : In c t -> In c (sp ++ t).
Proof. intros I. apply in_or_app. now right. Qed.
Lemma not_sp (c : Z) sp t : sp = [] \/ sp = [32] -> c <> 32 -> ~ In c t -> ~ In c (sp ++ t).
Proof. intros [-> | ->] N H I; [exact (H I)|]. destruct I as [I|I]; [congruence|exact (H I)]. Qed.
Lemma squash_sp sp t : sp = [] \/ sp = [32] -> squash (sp ++ t) = squash t.
Proof. intros [-> | ->]; reflexivity. Qed.
(** A fraction other than an integer is read back as the same fraction. *)
Theorem C105_fraction : forall fp d n k, reads_fractions fp -> real_fraction (Buf true d) = Ok (n, k) -> Z.abs n < 10 ^ 5 * k -> k <> 1 ->
  exists d', rereads fp (KRealFraction, d) (KRealFraction, d') /\ real_fraction (Buf true d') = Ok (n, k).
Proof.
  intros fp d n k FP RF B NK. set (slot := 24 :: zeros 8).
  assert (W : wf_bytes slot) by (apply Forall_forall; intros z I; cbn in I; unfold is_byte; lia).
  destruct (C104_fraction_reload fp (Buf true d) slot n k FP eq_refl W RF B) as (t & b & T & L & RB & _).
  assert (D : 1 <= k <= 10000 /\ Z.gcd n k = 1) by (unfold real_fraction in RF; destruct (real_decimal (Buf true d)) as [z|]; [|discriminate RF]; injection RF as RF; now apply ratio_form in RF).
  assert (TT : t = fraction_show (n, k)) by (unfold fraction_string in T; rewrite RF in T; now injection T as <-).
  assert (SB : exists neg x m, b = stored 24 neg x m /\ is_byte x /\ 0 <= m < 10 ^ 14).
  { apply (load_fraction_stored n k 24 0 (zeros 7)); try tauto; [unfold is_byte; lia|]. unfold fraction_load in L. rewrite TT, squash_show, FP in L by (tauto || lia). exact L. }
  destruct SB as (neg & x & m & -> & X & M). exists (b_data (stored 24 neg x m)). split; [|exact RB].
  assert (I47 : In 47 t) by (rewrite TT; unfold fraction_show; cbn [fst snd]; replace (k =? 1) with false by lia; apply in_or_app; right; now left).
  assert (CH : forall c, In c t -> c = 45 \/ 47 <= c <= 57) by (intros c I; rewrite TT in I; now apply show_chars in I).
  exists t. cbn [fst snd]. split; [exact T|]. split; [apply plain_chars; [intros ->; destruct I47|intros c I; specialize (CH c I); lia]|].
  split; [|apply payload_of_stored; auto; try (unfold is_byte; lia); cbn; tauto].
  intros sp S. exists (stored 24 neg x m). split; [|reflexivity]. apply (first_reads fp _ [KReal; KUndefReal] KRealFraction (skipn 3 real_order)); [reflexivity| |].
  - intros c [<-|[<-|[]]]; apply refused_err, (real_refuses fp _ _ 47); auto; try (now left); try (now apply in_sp);
      (apply not_sp; [exact S|lia|intros I; specialize (CH _ I); lia]).
  - apply (new_real fp KRealFraction _ 24); [reflexivity|reflexivity|]. cbn [part_load]. unfold fraction_load in *. rewrite squash_sp by exact S. exact L.
Qed.
Print Assumptions C105_fraction.
(** A multiple of pi is read back as such, unless it is zero. *)
Lemma lstrip_in (c : Z) cs s : In c (lstrip cs s) -> In c s.
Proof. induction s as [|x s IH]; [intros []|]. cbn [lstrip]. destruct (memb x cs); [intros I; right; now apply IH|auto]. Qed.
Lemma pi_load_end w b : ~ In 112 w -> ~ In 42 w -> ~ In 960 w -> real_pi_load (w ++ [960]) b = real_load w b.
Proof.
  intros N1 N2 N3. unfold real_pi_load, replacer. cbn [fold_left fst snd]. change (s2l "pi") with (112 :: [105]). change (s2l "*") with [42].
  rewrite (str_replace_none 112) by (intros I; apply in_app_or in I as [I|I]; [now apply N1|cbn in I; lia]).
  rewrite (str_replace_none 42) by (intros I; apply in_app_or in I as [I|I]; [now apply N2|cbn in I; lia]).
  replace (memb 960 (w ++ [960])) with true by (symmetry; apply memb_spec, in_or_app; right; now left). f_equal.
  unfold strip, rstrip. destruct w as [|c w]; [reflexivity|]. cbn [app lstrip].
  replace (memb c [960]) with false by (symmetry; destruct (memb c [960]) eqn:E; [apply memb_spec in E; destruct E as [<-|[]]; exfalso; apply N3; now left|reflexivity]).
  change (c :: w ++ [960]) with ((c :: w) ++ [960]). rewrite rev_app_distr. cbn [rev app]. cbn [lstrip]. change (memb 960 [960]) with true. cbv iota.
  change (rev w ++ [c]) with (rev (c :: w)). rewrite lstrip_safe; [apply rev_involutive|]. intros x I [<-|[]]. apply N3. now apply in_rev.
Qed.
Theorem C105_pi : forall fp low neg x m d, refuses_signs fp -> stored_real low neg x m d -> short x m -> m <> 0 ->
  exists d', rereads fp (KRealPi, d) (KRealPi, d') /\ payload 32 neg x m d' /\ (low = 32 -> d' = d).
Proof.
  intros fp low neg x m d FP SR Sh NZ. destruct (decimal_text low neg x m d SR Sh) as (t & T & N & CH & R). exists (b_data (stored 32 neg x m)).
  assert (MM : 10 ^ 13 <= m < 10 ^ 14) by (destruct SR as (_ & _ & _ & [?|(-> & _)]); lia). destruct SR as (HL & P & X & _).
  split; [|split; [change 32 with (32 mod 128) at 1; apply stored_payload; lia|intros ->; symmetry; apply payload_stored; auto; lia]].
  assert (T2 : real_pi_string (Buf true d) = Ok (t ++ [960])).
  { destruct (C74_pi_string_roundtrip_iff low neg x m d (zeros 9)) as (s & S1 & S2 & _); auto; [apply Forall_forall; intros z I; cbn in I; unfold is_byte; lia|]. congruence. }
  exists (t ++ [960]). cbn [fst snd]. split; [exact T2|].
  split. { split; [destruct t; discriminate|]. intros c I. apply in_app_or in I as [I|I]; [specialize (CH c I)|destruct I as [<-|[]]; split; [reflexivity|cbn; lia]].
    split; [unfold is_space; lia|cbn; lia]. }
  split; [|apply payload_of_stored; auto; try (unfold is_byte; lia); cbn; tauto].
  intros sp S. exists (stored 32 neg x m). split; [|reflexivity]. apply (first_reads fp _ [KReal; KUndefReal; KRealFraction; KRealRadical] KRealPi (skipn 5 real_order)); [reflexivity| |].
  - assert (I960 : In 960 (sp ++ t ++ [960])) by (apply in_or_app; right; apply in_or_app; right; now left).
    assert (NE : forall c, c = 101 \/ c = 69 -> ~ In c (sp ++ t ++ [960])) by (intros c C; apply not_sp; [exact S|lia|]; intros I; apply in_app_or in I as [I|I]; [specialize (CH c I); lia|cbn in I; lia]).
    intros c [<-|[<-|[<-|[<-|[]]]]].
    + apply refused_err, (real_refuses fp _ _ 960); auto; right; now left.
    + apply refused_err, (real_refuses fp _ _ 960); auto; right; now left.
    + destruct (FP (squash (sp ++ t ++ [960]))) as (y & Y & C); [left; unfold squash; apply filter_In; split; [exact I960|reflexivity]|].
      now apply refused_err, (fraction_refuses fp _ y).
    + eapply (new_refused fp KRealRadical _ 28); [reflexivity|reflexivity|]. cbn [part_load]. rewrite radical_load_refused; [reflexivity|intros E; rewrite E in I960; destruct I960|now apply radical_parse_pi].
  - apply (new_real fp KRealPi _ 32); [reflexivity|reflexivity|]. cbn [part_load]. rewrite app_assoc.
    assert (NC : forall c, c = 112 \/ c = 42 \/ c = 960 -> ~ In c (sp ++ t)) by (intros c C; apply not_sp; [exact S|lia|intros I; specialize (CH c I); lia]).
    rewrite pi_load_end by (apply NC; lia).
    destruct S as [-> | ->]; [|change ([32] ++ t) with (32 :: t); rewrite real_load_space by exact N]; apply R; try reflexivity; unfold is_byte; lia.
Qed.
Print Assumptions C105_pi.
(** A fractional multiple of pi is read back as such, unless it is an integer
    multiple. *)
Theorem C105_pi_fraction : forall fp d n k, reads_fractions fp -> refuses_signs fp -> pi_fraction (Buf true d) = Ok (n, k) -> Z.abs n < 10 ^ 4 * k -> k <> 1 ->
  exists d', rereads fp (KRealPiFraction, d) (KRealPiFraction, d') /\ pi_fraction (Buf true d') = Ok (n, k).
Proof.
  intros fp d n k FP FS RF B NK. set (slot := 33 :: zeros 8).
  assert (W : wf_bytes slot) by (apply Forall_forall; intros z I; cbn in I; unfold is_byte; lia).
  assert (D : 1 <= k <= 10000 /\ Z.gcd n k = 1) by (unfold pi_fraction in RF; destruct (pi_decimal (Buf true d)) as [z|]; [|discriminate RF]; injection RF as RF; now apply ratio_form in RF).
  destruct D as [D G]. destruct (pi_loads n k slot D G B eq_refl W) as (b & L & RB).
  set (t := str_of_int n ++ [960] ++ s2l "/" ++ str_of_int k).
  assert (TT : pi_fraction_string (Buf true d) = Ok t) by (unfold pi_fraction_string; rewrite RF; cbn [rbind]; rewrite pi_text; replace (k =? 1) with false by lia; reflexivity).
  assert (SB : exists neg x m, b = stored 33 neg x m /\ is_byte x /\ 0 <= m < 10 ^ 14).
  { apply (load_fraction_stored n k 33 0 (zeros 7)); try tauto; [lia|unfold is_byte; lia]. }
  destruct SB as (neg & x & m & -> & X & M). exists (b_data (stored 33 neg x m)). split; [|exact RB].
  assert (CH : forall c, In c t -> c = 45 \/ 47 <= c <= 57 \/ c = 960).
  { intros c I. apply in_app_or in I as [I|I]; [apply int_chars in I; lia|]. apply in_app_or in I as [I|I]; [cbn in I; lia|].
    apply in_app_or in I as [I|I]; [cbn in I; lia|apply int_chars in I; lia]. }
  assert (I960 : In 960 t) by (apply in_or_app; right; now left).
  exists t. cbn [fst snd]. split; [exact TT|]. split; [split; [intros E; rewrite E in I960; destruct I960|intros c I; specialize (CH c I); split; [unfold is_space; lia|cbn; lia]]|].
  split; [|apply payload_of_stored; auto; try (unfold is_byte; lia); cbn; tauto].
  intros sp S. exists (stored 33 neg x m). split; [|reflexivity].
  assert (I2 : In 960 (sp ++ t)) by now apply in_sp.
  apply (first_reads fp _ [KReal; KUndefReal; KRealFraction; KRealRadical; KRealPi] KRealPiFraction []); [reflexivity| |].
  - assert (NE : forall c, c = 101 \/ c = 69 -> ~ In c (sp ++ t)) by (intros c C; apply not_sp; [exact S|lia|]; intros I; specialize (CH c I); lia).
    intros c [<-|[<-|[<-|[<-|[<-|[]]]]]].
    + apply refused_err, (real_refuses fp _ _ 960); auto; right; now left.
    + apply refused_err, (real_refuses fp _ _ 960); auto; right; now left.
    + destruct (FS (squash (sp ++ t))) as (y & Y & C); [left; unfold squash; apply filter_In; split; [exact I2|reflexivity]|].
      now apply refused_err, (fraction_refuses fp _ y).
    + eapply (new_refused fp KRealRadical _ 28); [reflexivity|reflexivity|]. cbn [part_load]. rewrite radical_load_refused; [reflexivity|intros E; rewrite E in I2; destruct I2|now apply radical_parse_pi].
    + eapply (new_refused fp KRealPi _ 32); [reflexivity|reflexivity|]. cbn [part_load]. unfold real_pi_load, replacer. cbn [fold_left fst snd]. change (s2l "pi") with (112 :: [105]). change (s2l "*") with [42].
      assert (NC : forall c, c = 112 \/ c = 42 -> ~ In c (sp ++ t)) by (intros c C; apply not_sp; [exact S|lia|intros I; specialize (CH c I); lia]).
      rewrite (str_replace_none 112) by (apply NC; lia). rewrite (str_replace_none 42) by (apply NC; lia).
      replace (memb 960 (sp ++ t)) with true by (symmetry; now apply memb_spec). unfold real_load.
      assert (J : In 47 (strip [960] (sp ++ t))).
      { unfold strip, rstrip. apply in_rev. rewrite rev_involutive. apply in_lstrip; [cbn; lia|]. apply in_rev. rewrite rev_involutive. apply in_lstrip; [cbn; lia|].
        apply in_sp. unfold t. apply in_or_app. right. right. now left. }
      assert (SUB : forall c, In c (strip [960] (sp ++ t)) -> In c (sp ++ t)).
      { intros c I. unfold strip, rstrip in I. apply in_rev in I. apply lstrip_in in I. apply in_rev in I. now apply lstrip_in in I. }
      rewrite (real_parse_foreign 47) by (auto; try (now left); intros I; apply SUB in I; revert I; apply NE; lia). reflexivity.
  - apply (new_real fp KRealPiFraction _ 33); [reflexivity|reflexivity|]. cbn [part_load]. unfold pi_fraction_load.
    replace (memb 960 (sp ++ t)) with true by (symmetry; now apply memb_spec). rewrite orb_true_r. unfold fraction_load.
    replace (str_replace [960] [] (sp ++ t)) with (sp ++ fraction_show (n, k)).
    + rewrite squash_sp by exact S. rewrite squash_show, FP by (auto; lia). exact L.
    + rewrite replace1_app. f_equal; [destruct S as [-> | ->]; reflexivity|]. unfold t. rewrite !replace1_app. change (str_replace [960] [] [960]) with ([] : str).
      rewrite !str_replace_none by (try apply no_pi; cbn; lia). unfold fraction_show. cbn [fst snd]. replace (k =? 1) with false by lia. reflexivity.
Qed.
Print Assumptions C105_pi_fraction.
(** A radical with a root in its text is read back as the same number. *)
Lemma replace_back (c : Z) sub rep s : In c (str_replace sub rep s) -> In c s \/ In c rep.
Proof.
  unfold str_replace. generalize 0%nat. induction s as [|x s IH]; intros k; [intros []|]. cbn [str_replace_aux].
  destruct k as [|k]; [|intros I; destruct (IH _ I); [left; now right|now right]].
  destruct (starts_with sub (x :: s)); intros I.
  - apply in_app_or in I as [I|I]; [now right|]. destruct (IH _ I); [left; now right|now right].
  - destruct I as [I|I]; [left; now left|]. destruct (IH _ I); [left; now right|now right].
Qed.
Lemma show_radical_chars ls lr rs rr e c : 0 <= lr -> 0 <= rr -> In c (radical_show ls lr rs rr e) -> 40 <= c <= 41 \/ c = 43 \/ c = 45 \/ 47 <= c <= 57 \/ c = ROOT.
Proof.
  intros HL HR I. unfold radical_show in I. apply replace_back in I as [I|I]; [|cbn in I; lia].
  assert (T : forall a b, 0 <= b -> In c (radical_reduce (radical_term a b)) -> c = 45 \/ 48 <= c <= 57 \/ c = ROOT).
  { intros a b B J. rewrite reduce_term in J by exact B. destruct (vanishes a b); [destruct J|]. apply written_chars in J; [|exact B]. destruct J as [J|J]; [apply minus_chars in J; lia|lia]. }
  assert (DE : In c (s2l "/" ++ str_of_int e) -> c = 45 \/ 47 <= c <= 57) by (intros J; apply in_app_or in J as [J|J]; [cbn in J; lia|apply int_chars in J; lia]).
  specialize (T ls lr HL) as T1. specialize (T rs rr HR) as T2.
  set (l := radical_reduce (radical_term ls lr)) in *. set (r := radical_reduce (radical_term rs rr)) in *.
  clearbody l r. destruct l as [|l0 l], r as [|r0 r].
  - cbn in I. lia.
  - destruct (e =? 1); [specialize (T2 I); lia|]. apply in_app_or in I as [I|I]; [specialize (T2 I); lia|specialize (DE I); lia].
  - destruct (e =? 1); [specialize (T1 I); lia|]. apply in_app_or in I as [I|I]; [specialize (T1 I); lia|specialize (DE I); lia].
  - apply in_app_or in I as [I|I]; [cbn in I; lia|]. apply in_app_or in I as [I|I]; [specialize (T1 I); lia|]. apply in_app_or in I as [I|I]; [cbn in I; lia|].
    apply in_app_or in I as [I|I]; [specialize (T2 I); lia|]. apply in_app_or in I as [I|I]; [cbn in I; lia|specialize (DE I); lia].
Qed.
Lemma show_radical_root ls lr rs rr e : 0 <= lr -> 0 <= rr -> 0 <= e -> (ls <> 0 /\ 2 <= lr) \/ (rs <> 0 /\ 2 <= rr) -> In ROOT (radical_show ls lr rs rr e).
Proof.
  intros HL HR HE H. assert (I : In ROOT (rad_text (shown ls lr rs rr e))); [|rewrite <- show_written in I by assumption; unfold without in I; now apply filter_In in I].
  assert (T : forall sg a b, 2 <= b -> In ROOT (term_text (written sg a b))).
  { intros sg a b B. unfold term_text, written. cbn [t_sign t_scal t_rad]. replace (b =? 1) with false by lia. apply in_or_app. right. apply in_or_app. right. now left. }
  unfold shown. destruct (vanishes ls lr) eqn:V1, (vanishes rs rr) eqn:V2; unfold rad_text; cbn [r_fst r_snd r_den]; unfold vanishes in *.
  - exfalso. lia.
  - apply in_or_app. left. apply T. lia.
  - apply in_or_app. left. apply T. lia.
  - destruct H as [H|H]; [apply in_or_app; left; apply T; lia|]. apply in_or_app. right. apply in_or_app. left. apply T. lia.
Qed.
Lemma radical_load_space sp s b : sp = [] \/ sp = [32] -> s <> [] -> radical_load (sp ++ s) b = radical_load s b.
Proof. intros [-> | ->] N; [reflexivity|]. destruct s as [|c s]; [congruence|]. reflexivity. Qed.
Lemma rad_buf_payload t d ls rs lr rr : 0 <= t < 4 -> 0 <= d < 1000 -> 0 <= ls < 1000 -> 0 <= rs < 1000 -> 0 <= lr < 1000 -> 0 <= rr < 1000 ->
  real_payload KRealRadical (rad_buf 28 t d ls rs lr rr).
Proof.
  intros. split; [reflexivity|]. split; [unfold rad_buf; wf9|]. cbn. tauto.
Qed.
Theorem C105_radical : forall fp d ls lr rs rr e, refuses_signs fp -> radical_comps (Buf true d) = Ok (ls, lr, rs, rr, e) ->
  in_range ls lr rs rr e -> (lr = rr -> Z.abs (ls + rs) < 1000 /\ ls + rs <> 0) -> e <> 0 -> (ls <> 0 /\ 2 <= lr) \/ (rs <> 0 /\ 2 <= rr) ->
  exists d' ls' lr' rs' rr' e', rereads fp (KRealRadical, d) (KRealRadical, d') /\ radical_comps (Buf true d') = Ok (ls', lr', rs', rr', e') /\
    same_number ls lr rs rr e ls' lr' rs' rr' e' /\ 0 < e'.
Proof.
  intros fp d ls lr rs rr e FS RC HR BS NE RT. pose proof HR as (b1 & b2 & b3 & b4 & b5). set (slot := 28 :: zeros 8). set (t := radical_show ls lr rs rr e).
  assert (W : wf_bytes slot) by (apply Forall_forall; intros z I; cbn in I; unfold is_byte; lia).
  assert (BS' : lr = rr -> Z.abs (ls + rs) < 1000) by (intros Q; apply (BS Q)).
  assert (EX : exists b, radical_load t (Buf true slot) = (b, oret tt)).
  { apply (C103_reload_iff ls lr rs rr e slot HR BS' eq_refl W). split; [exact NE|]. split; [destruct RT as [RT|RT]; [left|right]; lia|]. intros (L1 & L2 & L3 & L4). specialize (BS L3). lia. }
  destruct (C103_reload_value ls lr rs rr e slot HR BS' eq_refl W EX) as (d' & ls' & lr' & rs' & rr' & e' & L & RC' & SN & _ & E').
  assert (RP : real_payload KRealRadical d').
  { destruct (shown_values ls lr rs rr e ltac:(lia) ltac:(lia) ltac:(lia)) as (V1 & V2 & V3 & V4 & V5 & V6). cbv zeta in *.
    pose proof (show_written ls lr rs rr e ltac:(lia) ltac:(lia) ltac:(lia)) as T. pose proof (shown_form ls lr rs rr e ltac:(lia) ltac:(lia) ltac:(lia)) as F.
    assert (Y : Z.abs (scalar (r_fst (shown ls lr rs rr e))) < 1000 /\ radicand (r_fst (shown ls lr rs rr e)) < 1000 /\ Z.abs (scalar2 (shown ls lr rs rr e)) < 1000 /\
      radicand2 (shown ls lr rs rr e) < 1000 /\ Z.abs (denominator (shown ls lr rs rr e)) < 1000).
    { rewrite ?V1, ?V2, ?V3, ?V4, ?V5; destruct (vanishes ls lr); destruct (vanishes rs rr); cbn [orb andb] in *; lia. }
    destruct Y as (Y1 & Y2 & Y3 & Y4 & Y5).
    assert (Y6 : radicand (r_fst (shown ls lr rs rr e)) = radicand2 (shown ls lr rs rr e) -> Z.abs (scalar (r_fst (shown ls lr rs rr e)) + scalar2 (shown ls lr rs rr e)) < 1000).
    { rewrite V1, V2, V3, V4. destruct (vanishes ls lr); destruct (vanishes rs rr); cbn [orb andb]; intros Q; lia. }
    apply (C73_accepted_iff (shown ls lr rs rr e)) in EX as (E0 & L0 & N1 & N2); auto.
    destruct (radical_load_spec (shown ls lr rs rr e) t slot (rad_form_wf _ F N1 N2) T eq_refl W) as [_ R].
    destruct (R E0 L0 Y1 Y2 Y3 Y4 Y5 Y6) as (t' & k & a & b & a2 & b2' & H & H1 & H2 & H3 & H4 & H5 & H6 & _).
    unfold t in H. rewrite L in H. injection H as ->. apply rad_buf_payload; lia. }
  exists d', ls', lr', rs', rr', e'. split; [|auto].
  assert (IR : In ROOT t) by (apply show_radical_root; auto; lia). assert (TN : t <> []) by (intros Q; rewrite Q in IR; destruct IR).
  assert (CH : forall c, In c t -> 40 <= c <= 41 \/ c = 43 \/ c = 45 \/ 47 <= c <= 57 \/ c = ROOT) by (intros c; apply show_radical_chars; lia).
  exists t. cbn [fst snd]. split; [unfold real_text, radical_string; rewrite RC; reflexivity|].
  split; [split; [exact TN|intros c I; specialize (CH c I); unfold ROOT in CH; split; [unfold is_space; lia|cbn; lia]]|]. split; [|exact RP].
  intros sp S. exists (Buf true d'). split; [|reflexivity]. apply (first_reads fp _ [KReal; KUndefReal; KRealFraction] KRealRadical (skipn 4 real_order)); [reflexivity| |].
  - assert (I2 : In 8730 (sp ++ t)) by now apply in_sp.
    assert (NC : forall c, c = 101 \/ c = 69 -> ~ In c (sp ++ t)) by (intros c C; apply not_sp; [exact S|lia|]; intros I; specialize (CH c I); unfold ROOT in CH; lia).
    intros c [<-|[<-|[<-|[]]]].
    + apply refused_err, (real_refuses fp _ _ 8730); auto; right; now right.
    + apply refused_err, (real_refuses fp _ _ 8730); auto; right; now right.
    + destruct (FS (squash (sp ++ t))) as (y & Y & C); [right; unfold squash; apply filter_In; split; [exact I2|reflexivity]|].
      now apply refused_err, (fraction_refuses fp _ y).
  - apply (new_real fp KRealRadical _ 28); [reflexivity|reflexivity|]. cbn [part_load]. rewrite radical_load_space by assumption. exact L.
Qed.
Print Assumptions C105_radical.

(** *** Decimal lists and matrices reload byte for byte *)
Definition decimal (d : bytes) : Prop := exists neg x m, stored_real 0 neg x m d /\ short x m.
Lemma stored_wf low neg x m d : stored_real low neg x m d -> length d = 9%nat /\ wf_bytes d.
Proof.
  intros (HL & P & X & M). assert (MM : 0 <= m < 10 ^ 14) by (destruct M as [?|(-> & _)]; lia). rewrite (payload_stored low neg x m d HL P MM).
  apply stored_fields; auto. unfold is_byte. lia.
Qed.
Lemma decimal_payload d : decimal d -> real_payload KReal d.
Proof.
  intros (neg & x & m & S & _). destruct (stored_wf _ _ _ _ _ S) as [L W]. split; [exact L|]. split; [exact W|].
  destruct S as (_ & (_ & N & _) & _). rewrite N. left. now destruct neg.
Qed.
Lemma elems_decimal ns ps fp ds : names_ok ns -> Forall decimal ds ->
  exists zs, omapM (elem_new ns ps KRealEntry true) ds = oret zs /\ Forall2 (entry_rereads fp) zs (map (pair KReal) ds).
Proof.
  intros N F. induction F as [|d ds D F (zs & E & R)]; [exists []; split; [reflexivity|constructor]|].
  destruct (elem_new_real ns ps N KReal d (decimal_payload d D)) as (e & X & C & DD & _).
  exists (e :: zs). split; [cbn [omapM]; now rewrite X, obind_oret, E|]. cbn [map]. constructor; [|exact R]. unfold entry_rereads. rewrite C, DD.
  destruct D as (neg & x & m & S & Sh). destruct (C105_decimal fp KReal 0 neg x m d S Sh (or_introl eq_refl)) as (d' & Q & _ & I). now rewrite (I eq_refl) in Q.
Qed.
Lemma flash_has' e : flash_entry e -> has_flash e = true.
Proof. intros F. destruct e. exact (flash_has _ _ F). Qed.
Theorem C105_exact : forall ns ps fp e ds e0 D, names_ok ns -> e_cls e = KRealList -> flash_entry e -> data e = concat ds -> Forall decimal ds -> ds <> [] -> zlen ds < 65536 ->
  e_cls e0 = KRealList -> flash_entry e0 -> e_data e0 = Buf true D -> (2 <= length D)%nat ->
  exists s e1, list_text ns ps e = oret s /\ list_load_string ns ps fp s e0 = (if 999 <? zlen ds then [WListLength] else [], Ok e1) /\
    data e1 = data e /\ list_length e1 = zlen ds.
Proof.
  intros ns ps fp e ds e0 D N K FE DE F NE Z K0 FE0 ED LD. destruct (elems_decimal ns ps fp ds N F) as (zs & E & R).
  assert (LE : list_elems ns ps e = oret zs).
  { unfold list_elems. rewrite K, DE, (flash_has' e FE). rewrite chunks_concat; [exact E|vm_compute; lia|]. eapply Forall_impl; [|exact F]. intros d Q. exact (proj1 (decimal_payload d Q)). }
  assert (LZ : zlen zs = zlen ds) by (unfold zlen; apply Forall2_len in R; rewrite R, map_length; reflexivity).
  destruct (C105_list ns ps fp e zs (map (pair KReal) ds) e0 D) as (s & e1 & es & T & L & Q1 & Q2 & Q3 & Q4 & Q5 & Q6); auto.
  { intros ->. destruct ds; [congruence|]. discriminate LZ. } { lia. }
  exists s, e1. split; [exact T|]. split; [now rewrite L, LZ|]. split; [rewrite Q5, DE, map_map; cbn [snd]; now rewrite map_id|lia].
Qed.
Print Assumptions C105_exact.
(** An empty list is shown as [[]], and that text is a list of one zero. *)
Theorem C105_empty_refuted : forall ns ps fp e0 D, names_ok ns -> e_cls e0 = KRealList -> flash_entry e0 -> e_data e0 = Buf true D -> (2 <= length D)%nat ->
  list_show [] = s2l "[]" /\ exists e1, list_load_string ns ps fp (list_show []) e0 = oret e1 /\ list_length e1 = 1 /\ data e1 = [0; 128; 0; 0; 0; 0; 0; 0; 0].
Proof.
  intros ns ps fp e0 D N K FE ED LD. split; [reflexivity|].
  assert (P : real_payload KReal [0; 128; 0; 0; 0; 0; 0; 0; 0]) by (split; [reflexivity|]; split; [apply wf_bytesb_spec; reflexivity|now left]).
  destruct (text_elems ns ps fp [[]] [(KReal, [0; 128; 0; 0; 0; 0; 0; 0; 0])] N) as (es & X & F).
  - constructor; [|constructor]. eexists. split; [apply (first_reads fp _ [] KReal (tl real_order)); [reflexivity|intros k []|vm_compute; reflexivity]|reflexivity].
  - constructor; [exact P|constructor].
  - inversion F as [|? e ? ? [C DD] F']; subst. inversion F'; subst.
    destruct (C36_roundtrip ns ps e0 D [e] N) as (e1 & es' & Q1 & Q2 & Q3 & Q4 & Q5 & _); auto; [rewrite K; now left|reflexivity| |].
    { intros x [<-|[]]. rewrite K. cbn [payload_for]. cbn [fst snd] in C, DD. now rewrite C, DD. }
    exists e1. split; [|split; [exact Q4|rewrite Q5; cbn [map concat]; cbn [snd] in DD; rewrite DD; reflexivity]].
    unfold list_load_string. replace (omapM (text_elem ns ps fp) (list_pieces (list_show []))) with (oret [e]) by (symmetry; exact X). rewrite obind_oret, Q1. reflexivity.
Qed.
Print Assumptions C105_empty_refuted.
(** Kinds change: an undefined number and an integer-valued fraction become
    ordinary numbers, a rootless radical a fraction. *)
Theorem C105_kind_refuted : exists d1 d2 d3 d', real_payload KUndefReal d1 /\ real_payload KRealFraction d2 /\ real_payload KRealRadical d3 /\
  rereads fraction1 (KUndefReal, d1) (KReal, d') /\ rereads fraction1 (KRealFraction, d2) (KReal, d') /\
  exists d4, rereads fraction1 (KRealRadical, d3) (KRealFraction, d4).
Proof.
  assert (RD : forall x y t, real_text (fst x) (Buf true (snd x)) = Ok t -> t <> [] -> forallb (fun c => negb (is_space c) && negb (memb c (s2l ",[]{}"))) t = true ->
    real_of_text fraction1 t = Ok (Real (fst y) (Buf true (snd y))) -> real_of_text fraction1 (32 :: t) = Ok (Real (fst y) (Buf true (snd y))) ->
    real_payload (fst y) (snd y) -> rereads fraction1 x y).
  { intros x y t T N S R1 R2 P. exists t. split; [exact T|]. split; [split; [exact N|]|split; [|exact P]].
    - intros c I. rewrite forallb_forall in S. specialize (S c I). apply andb_true_iff in S as [S1 S2]. split; [now apply negb_true_iff|]. intros J. apply memb_spec in J. now rewrite J in S2.
    - intros sp [-> | ->]; eexists; (split; [eassumption|reflexivity]). }
  exists [14; 128; 16; 0; 0; 0; 0; 0; 0], [24; 128; 16; 0; 0; 0; 0; 0; 0], (rad_buf 28 0 4 3 0 1 1), [0; 128; 16; 0; 0; 0; 0; 0; 0].
  split; [split; [reflexivity|]; split; [apply wf_bytesb_spec; reflexivity|cbn; tauto]|].
  split; [split; [reflexivity|]; split; [apply wf_bytesb_spec; reflexivity|cbn; tauto]|].
  split; [split; [reflexivity|]; split; [apply wf_bytesb_spec; reflexivity|cbn; tauto]|].
  split; [apply (RD _ _ (s2l "1")); try (vm_compute; reflexivity); [discriminate|split; [reflexivity|]; split; [apply wf_bytesb_spec; reflexivity|cbn; tauto]]|].
  split; [apply (RD _ _ (s2l "1")); try (vm_compute; reflexivity); [discriminate|split; [reflexivity|]; split; [apply wf_bytesb_spec; reflexivity|cbn; tauto]]|].
  exists [24; 127; 117; 0; 0; 0; 0; 0; 0].
  apply (RD _ _ (s2l "3/4")); try (vm_compute; reflexivity); [discriminate|split; [reflexivity|]; split; [apply wf_bytesb_spec; reflexivity|cbn; tauto]].
Qed.
Print Assumptions C105_kind_refuted.
Lemma fraction1_signs : refuses_signs fraction1.
Proof.
  intros s H. assert (FC : exists c, foreign c /\ c <> 47 /\ In c s) by (destruct H as [H|H]; [exists 960|exists 8730]; (split; [unfold foreign; tauto|split; [lia|exact H]])).
  destruct FC as (c & F & N & I). destruct (in_split c 47 s N I) as (p & P & Q). pose proof (foreign_parse c p F Q) as E. unfold fraction1, fraction0.
  destruct (split_on 47 s) as [|a [|b [|? ?]]]; [destruct P| | |].
  - destruct P as [<-|[]]. rewrite E. eauto.
  - destruct P as [<-|[<-|[]]]; rewrite E; [eauto|]. destruct (parse_int 10 a); eauto.
  - eauto.
Qed.
(** A list of a fraction, a decimal number, a radical and a multiple of pi. *)
Definition mixed : list (cls * bytes) :=
  [(KRealFraction, [152; 128; 49; 66; 133; 113; 66; 133; 113]); (KReal, [128; 127; 37; 0; 0; 0; 0; 0; 0]);
   (KRealRadical, rad_buf 28 2 4 3 12 7 5); (KRealPi, [160; 128; 55; 0; 0; 0; 0; 0; 0]); (KRealPiFraction, [161; 128; 49; 66; 133; 113; 66; 133; 113])].
Definition mixed_list : entry := with_data (list0 KRealList 1) (Buf true ([5; 0] ++ concat (map snd mixed))).
Definition mixed_text1 : str :=
  s2l "[-22/7, -0.25, (3" ++ [8730] ++ s2l "7-12" ++ [8730] ++ s2l "5)/4, -3.7" ++ [960] ++ s2l ", -22" ++ [960] ++ s2l "/7]".
Example C105_example : refuses_signs fraction1 /\
  list_text ns0 ps0 mixed_list = oret mixed_text1 /\
  (exists e1, list_load_string ns0 ps0 fraction1 mixed_text1 (list0 KRealList 1) = oret e1 /\ data e1 = data mixed_list) /\
  real_fraction (Buf true [152; 128; 49; 66; 133; 113; 66; 133; 113]) = Ok (-22, 7) /\
  radical_comps (Buf true (rad_buf 28 2 4 3 12 7 5)) = Ok (3, 7, -12, 5, 4) /\ in_range 3 7 (-12) 5 4 /\
  stored_real 32 true 128 37000000000000 [160; 128; 55; 0; 0; 0; 0; 0; 0] /\ short 128 37000000000000 /\
  decimal [128; 127; 37; 0; 0; 0; 0; 0; 0] /\ flash_entry (list0 KRealList 1).
Proof.
  assert (SR : forall low neg x m d, 0 <= low < 128 -> is_byte x -> 10 ^ 13 <= m < 10 ^ 14 -> d = b_data (stored low neg x m) -> stored_real low neg x m d).
  { intros low neg x m d HL X M ->. split; [exact HL|]. split; [|split; [exact X|now left]]. rewrite <- (Z.mod_small low 128) at 1 by lia. apply stored_payload. lia. }
  split; [exact fraction1_signs|]. split; [vm_compute; reflexivity|]. split; [eexists; split; vm_compute; reflexivity|]. split; [vm_compute; reflexivity|].
  split; [vm_compute; reflexivity|]. split; [repeat split; lia|]. split; [apply SR; try lia; [unfold is_byte; lia|vm_compute; reflexivity]|]. split; [intros H; lia|].
  split; [|split; [reflexivity|]; exists 0, 0; split; reflexivity].
  exists true, 127, 25000000000000. split; [apply SR; try lia; [unfold is_byte; lia|vm_compute; reflexivity]|intros H; lia].
Qed.
Theorem C106_exact : forall ns ps fp e rows w e0 a b D, names_ok ns -> e_cls e = KMatrix -> flash_entry e ->
  e_data e = Buf true (w :: zlen rows :: concat (concat rows)) -> 1 <= w <= 255 -> rows <> [] -> zlen rows <= 255 ->
  Forall (fun r => zlen r = w) rows -> Forall (Forall decimal) rows ->
  e_cls e0 = KMatrix -> flash_entry e0 -> e_data e0 = Buf true (a :: b :: D) -> is_byte b ->
  exists s e1 ws, matrix_text ns ps e = oret s /\ matrix_load_string ns ps fp s e0 = (ws, Ok e1) /\ calc_data e1 = calc_data e.
Proof.
  intros ns ps fp e rows w e0 a b D N K FE DE HW NE HH RW F K0 FE0 ED Bb.
  assert (G : exists m, omapM (omapM (elem_new ns ps KRealEntry true)) rows = oret m /\ Forall2 (Forall2 (entry_rereads fp)) m (map (map (pair KReal)) rows)).
  { clear - N F. induction F as [|r rows R F (m & E & Q)]; [exists []; split; [reflexivity|constructor]|]. destruct (elems_decimal ns ps fp r N R) as (zs & E0 & R0).
    exists (zs :: m). split; [cbn [omapM]; now rewrite E0, obind_oret, E|]. cbn [map]. now constructor. }
  destruct G as (m & E & R).
  assert (WE : width e = w).
  { unfold width, view_get. rewrite DE. cbn [v_start v_stop b_data].
    rewrite py_slice_nn by (rewrite ?zlen_cons; pose proof (zlen_nonneg (concat (concat rows))); lia). change (w + 0 = w). lia. }
  assert (DD : data e = concat (concat rows)).
  { unfold data. rewrite K, DE. change (data_view KMatrix) with (View (Some 2) None, DBytes). cbn [fst]. unfold view_get. cbn [v_start v_stop b_data].
    now rewrite py_slice_from by lia. }
  assert (LE : matrix_rows ns ps e = oret m).
  { unfold matrix_rows. rewrite WE, DD, (flash_has' e FE), (chunks_concat 9); [rewrite chunks_concat; [exact E|lia|]|lia|].
    - eapply Forall_impl; [|exact RW]. cbn beta. intros r Hr. unfold zlen in Hr. lia.
    - apply Forall_concat. eapply Forall_impl; [|exact F]. intros r. apply Forall_impl. intros d Q. exact (proj1 (decimal_payload d Q)). }
  assert (LM : map (@length entry) m = map (@length bytes) rows).
  { clear - R. revert m R. induction rows as [|r rows IH]; intros m R; inversion R as [|z ? m' ? R0 R1]; subst; [reflexivity|]. cbn [map]. f_equal; [|now apply IH].
    apply Forall2_len in R0. now rewrite map_length in R0. }
  assert (ZM : zlen m = zlen rows) by (unfold zlen; rewrite <- (map_length (@length entry) m), LM, map_length; reflexivity).
  destruct (C106_matrix ns ps fp e m w (map (map (pair KReal)) rows) e0 a b D) as (s & e1 & ws & rs & T & L & _ & _ & _ & _ & _ & Q & _); auto; try lia.
  { intros ->. destruct rows; [congruence|discriminate LM]. }
  { unfold rectangular. clear - LM RW. revert m LM. induction RW as [|r rows Q RW IH]; intros [|z m] LM; try discriminate LM; [constructor|]. injection LM as L0 LM. constructor; [unfold zlen in *; rewrite L0; exact Q|now apply IH]. }
  exists s, e1, ws. split; [exact T|]. split; [exact L|]. rewrite Q. unfold calc_data. rewrite DE. cbn [b_data app]. rewrite ZM. do 2 f_equal.
  clear. induction rows as [|r rows IH]; [reflexivity|]. cbn [map concat]. rewrite IH, concat_app. f_equal. rewrite map_map. cbn [snd]. now rewrite map_id.
Qed.
Print Assumptions C106_exact.
(** The text of an empty matrix is that of a matrix of one zero. *)
Theorem C106_empty_refuted : exists e0, e_cls e0 = KMatrix /\ flash_entry e0 /\ matrix_rows ns0 ps0 e0 = oret [] /\ matrix_text ns0 ps0 e0 = oret (s2l "[]") /\
  exists e1 rows, matrix_load_string ns0 ps0 fraction1 (s2l "[]") e0 = oret e1 /\ calc_data e1 = [1; 1; 0; 128; 0; 0; 0; 0; 0; 0; 0] /\ matrix_rows ns0 ps0 e1 = oret rows /\ length rows = 1%nat.
Proof.
  exists (list0 KMatrix 2). split; [reflexivity|]. split; [split; [reflexivity|]; exists 0, 0; split; reflexivity|]. split; [vm_compute; reflexivity|]. split; [vm_compute; reflexivity|].
  do 2 eexists. split; [vm_compute; reflexivity|]. split; [vm_compute; reflexivity|]. split; vm_compute; reflexivity.
Qed.
Print Assumptions C106_empty_refuted.
Definition mat22 : entry := with_data (list0 KMatrix 2) (Buf true ([2; 2] ++
  [0; 128; 16; 0; 0; 0; 0; 0; 0] ++ [128; 127; 37; 0; 0; 0; 0; 0; 0] ++ [24; 127; 80; 0; 0; 0; 0; 0; 0] ++ [0; 130; 18; 52; 86; 0; 0; 0; 0])).
Example C106_example : matrix_text ns0 ps0 mat22 = oret (s2l "[[1, -0.25], [1/2, 123.456]]") /\ matrix_pieces (s2l "[[1, -0.25], [1/2, 123.456]]") = [[s2l "1"; s2l "-0.25"]; [s2l "1/2"; s2l "123.456"]] /\
  (exists e1, matrix_load_string ns0 ps0 fraction1 (s2l "[[1, -0.25], [1/2, 123.456]]") (list0 KMatrix 2) = oret e1 /\ calc_data e1 = calc_data mat22) /\
  matrix_pieces (s2l "[[1,2][3,4]]") = [[s2l "1"; s2l "2"]; [s2l "3"; s2l "4"]] /\ flash_entry (list0 KMatrix 2).
Proof.
  split; [vm_compute; reflexivity|]. split; [vm_compute; reflexivity|]. split; [eexists; split; vm_compute; reflexivity|]. split; [vm_compute; reflexivity|].
  split; [reflexivity|]. exists 0, 0. split; reflexivity.
Qed.
