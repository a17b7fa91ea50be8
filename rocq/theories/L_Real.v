(** Lemmas for the real number types. *)
From Verif Require Import L_Base M_Data M_Numeric M_Real S_Data L_Data S_Real.

(** * Text *)
Lemma str_replace_none c sub rep s : ~ In c s -> str_replace (c :: sub) rep s = s.
Proof.
  unfold str_replace. intros H. induction s as [|x s IH]; auto.
  cbn [str_replace_aux starts_with]. destruct (c =? x) eqn:E; [exfalso; apply H; left; lia|]. cbn [andb].
  f_equal. apply IH. intros I. apply H. now right.
Qed.
Lemma str_replace_skip sub rep k s : str_replace_aux sub rep k s = str_replace_aux sub rep 0 (skipn k s).
Proof.
  revert s; induction k as [|k IH]; intros [|x s]; auto. cbn [str_replace_aux skipn]. apply IH.
Qed.
Lemma starts_with_app p s : starts_with p (p ++ s) = true.
Proof. induction p; auto. cbn. now rewrite Z.eqb_refl. Qed.
Lemma str_replace_hit c sub rep s :
  str_replace (c :: sub) rep ((c :: sub) ++ s) = rep ++ str_replace (c :: sub) rep s.
Proof.
  unfold str_replace. change ((c :: sub) ++ s) with (c :: (sub ++ s)).
  cbn [str_replace_aux]. change (c :: sub ++ s) with ((c :: sub) ++ s). rewrite starts_with_app.
  f_equal. rewrite str_replace_skip. f_equal. cbn [length pred]. now apply skipn_app_exact.
Qed.
Lemma str_replace_app c sub rep a s : ~ In c a ->
  str_replace (c :: sub) rep (a ++ s) = a ++ str_replace (c :: sub) rep s.
Proof.
  unfold str_replace. intros H. induction a as [|x a IH]; auto.
  cbn [app str_replace_aux starts_with]. destruct (c =? x) eqn:E; [exfalso; apply H; left; lia|]. cbn [andb].
  f_equal. apply IH. intros I. apply H. now right.
Qed.
Lemma split_on_none c s : ~ In c s -> split_on c s = [s].
Proof.
  induction s as [|x s IH]; auto. intros H. cbn [split_on].
  destruct (x =? c) eqn:E; [exfalso; apply H; left; lia|]. rewrite IH; auto. intros I. apply H. now right.
Qed.
Lemma split_on_app c a s : ~ In c a -> split_on c (a ++ c :: s) = a :: split_on c s.
Proof.
  induction a as [|x a IH]; intros H; cbn [app split_on].
  - now rewrite Z.eqb_refl.
  - destruct (x =? c) eqn:E; [exfalso; apply H; left; lia|]. rewrite IH; auto. intros I. apply H. now right.
Qed.
Lemma memb_spec c s : memb c s = true <-> In c s.
Proof.
  unfold memb. rewrite existsb_exists. split.
  - intros (x & I & E). apply Z.eqb_eq in E. now subst.
  - intros I. exists c. split; auto. apply Z.eqb_refl.
Qed.
Lemma memb_false c s : memb c s = false <-> ~ In c s.
Proof. rewrite <- memb_spec. destruct (memb c s); split; intros; congruence || (exfalso; auto; fail) || auto. Qed.
Lemma lstrip_id cs s : (forall c r, s = c :: r -> ~ In c cs) -> lstrip cs s = s.
Proof.
  destruct s as [|c r]; auto. intros H. cbn. specialize (H c r eq_refl). apply memb_false in H. now rewrite H.
Qed.
Lemma lstrip_app cs a s : Forall (fun c => In c cs) a -> lstrip cs (a ++ s) = lstrip cs s.
Proof. induction 1 as [|c a I F IH]; auto. cbn. apply memb_spec in I. now rewrite I. Qed.
Lemma rstrip_snoc_id cs s c : ~ In c cs -> rstrip cs (s ++ [c]) = s ++ [c].
Proof.
  intros H. unfold rstrip. rewrite rev_app_distr. cbn [rev app]. rewrite lstrip_id.
  - cbn [rev]. now rewrite rev_involutive.
  - intros x r E. injection E as <- _. auto.
Qed.
Lemma rstrip_app cs s a : Forall (fun c => In c cs) a -> rstrip cs (s ++ a) = rstrip cs s.
Proof.
  intros H. unfold rstrip. rewrite rev_app_distr, lstrip_app; auto. apply Forall_rev in H. exact H.
Qed.
Lemma lower_app a b : lower (a ++ b) = lower a ++ lower b.
Proof. apply map_app. Qed.
(** Digit characters. *)
Lemma text_chars ds : text_of ds = map char_of_digit ds.
Proof. reflexivity. Qed.
Lemma text_in c ds : Forall digit ds -> In c (text_of ds) -> 48 <= c <= 57.
Proof.
  intros H I. apply in_map_iff in I as (d & <- & I). rewrite Forall_forall in H. specialize (H d I). unfold digit in H. lia.
Qed.
Lemma text_not_in c ds : Forall digit ds -> (c < 48 \/ 57 < c) -> ~ In c (text_of ds).
Proof. intros H O I. apply text_in in I; auto. lia. Qed.
Lemma lower_text ds : Forall digit ds -> lower (text_of ds) = text_of ds.
Proof.
  intros H. unfold lower. rewrite <- (map_id (text_of ds)) at 2. apply map_ext_in. intros c I. apply text_in in I; auto.
  destruct ((65 <=? c) && (c <=? 90)) eqn:E; lia.
Qed.
Lemma number_dec ds : number ds = dec_value ds. Proof. reflexivity. Qed.
Lemma digit_is ds : Forall digit ds <-> Forall is_digit ds.
Proof. reflexivity. Qed.
Lemma parse_text ds : Forall digit ds -> ds <> [] -> parse_int 10 (text_of ds) = Ok (number ds).
Proof. intros H N. rewrite text_chars, parse_int_chars; auto. left. lia. Qed.
Lemma or_zero_text ds : or_zero (text_of ds) = text_of (match ds with [] => [0] | _ => ds end).
Proof. destruct ds; reflexivity. Qed.
Lemma number_or_zero ds : number (match ds with [] => [0] | _ => ds end) = number ds.
Proof. destruct ds; reflexivity. Qed.

(** * The shifting loop *)
Lemma text_length ds : length (text_of ds) = length ds. Proof. apply map_length. Qed.
Lemma shift_big d J F e fuel : Forall digit (d :: J) -> 0 < d -> (length J < fuel)%nat ->
  shift_point fuel (text_of (d :: J)) F e = Ok (text_of [d], text_of J ++ F, e + zlen J).
Proof.
  revert F e fuel. induction J as [|x J IH] using rev_ind; intros F e fuel D P L.
  - destruct fuel as [|f]; [cbn in L; lia|]. cbn [shift_point].
    rewrite parse_text by (auto || discriminate). cbn [rbind].
    assert (number [d] = d) as -> by (unfold number; cbn; lia).
    inversion D; subst. unfold digit in *. replace ((0 <? d) && (d <? 10)) with true by lia.
    cbn. rewrite Z.add_0_r. reflexivity.
  - destruct fuel as [|f]; [lia|]. rewrite app_length in L. cbn in L.
    assert (D' : Forall digit (d :: J)). { inversion D; subst. constructor; auto. apply Forall_app in H2. tauto. }
    assert (Dx : digit x). { inversion D; subst. apply Forall_app in H2 as [_ H2]. now inversion H2. }
    cbn [shift_point]. rewrite parse_text by (auto || discriminate). cbn [rbind].
    assert (N : 10 <= number (d :: J ++ [x])).
    { rewrite number_dec. change (d :: J ++ [x]) with ((d :: J) ++ [x]). rewrite dec_value_snoc, dec_value_cons.
      pose proof (dec_value_bound J). inversion D'; subst. pose proof (Z.pow_pos_nonneg 10 (zlen J) ltac:(lia) (zlen_nonneg J)).
      unfold digit in Dx. specialize (H H3). nia. }
    replace ((0 <? number (d :: J ++ [x])) && (number (d :: J ++ [x]) <? 10)) with false by lia.
    replace (number (d :: J ++ [x]) =? 0) with false by lia.
    assert (E : text_of (d :: J ++ [x]) = text_of (d :: J) ++ [x + 48]) by (unfold text_of; cbn; now rewrite map_app).
    rewrite E, removelast_last, app_length. cbn [length]. replace (length (text_of (d :: J)) + 1 - 1)%nat with (length (text_of (d :: J))) by lia.
    rewrite skipn_app_exact by auto. rewrite IH by (auto || lia).
    unfold text_of. rewrite map_app. cbn [map]. rewrite <- app_assoc. rewrite zlen_app.
    do 2 f_equal. change (zlen [x]) with 1. lia.
Qed.
Lemma shift_zero k : forall I G d F e fuel, Forall digit I -> I <> [] -> number I = 0 -> digit d -> 0 < d ->
  G = repeat 48 k ++ (d + 48) :: F -> (k + 1 < fuel)%nat ->
  shift_point fuel (text_of I) G e = Ok (text_of [d], F, e - Z.of_nat k - 1).
Proof.
  induction k as [|k IH]; intros I G d F e fuel DI NI ZI Dd Pd -> L; destruct fuel as [|f]; try lia; cbn [shift_point];
    rewrite parse_text by auto; cbn [rbind]; rewrite ZI; cbn [Z.ltb Z.compare andb Z.eqb repeat app].
  - change [d + 48] with (text_of [d]). replace (text_of [d]) with (text_of (d :: [])) by reflexivity.
    rewrite shift_big by (auto || (cbn; lia)). cbn [text_of map app]. do 2 f_equal. unfold zlen. cbn. lia.
  - change [48] with (text_of [0]). rewrite (IH [0] _ d F); auto; try lia; try discriminate.
    + do 2 f_equal. lia.
    + constructor; [split; [discriminate|reflexivity]|constructor].
Qed.

(** * Scaled integers *)
Lemma pow10_pos k : 0 <= k -> 0 < 10 ^ k. Proof. intros. apply Z.pow_pos_nonneg; lia. Qed.
Lemma scale_le a x b y z : z <= x -> z <= y -> (sci_le a x b y <-> a * 10 ^ (x - z) <= b * 10 ^ (y - z)).
Proof.
  intros Hx Hy. unfold sci_le. set (m := Z.min x y).
  replace (x - z) with ((x - m) + (m - z)) by lia. replace (y - z) with ((y - m) + (m - z)) by lia.
  rewrite !Z.pow_add_r by lia. pose proof (pow10_pos (m - z) ltac:(lia)). split; nia.
Qed.
Lemma scale_lt a x b y z : z <= x -> z <= y -> (sci_lt a x b y <-> a * 10 ^ (x - z) < b * 10 ^ (y - z)).
Proof.
  intros Hx Hy. unfold sci_lt. set (m := Z.min x y).
  replace (x - z) with ((x - m) + (m - z)) by lia. replace (y - z) with ((y - m) + (m - z)) by lia.
  rewrite !Z.pow_add_r by lia. pose proof (pow10_pos (m - z) ltac:(lia)). split; nia.
Qed.
Lemma scale_eq a x b y z : z <= x -> z <= y -> (sci_eq a x b y <-> a * 10 ^ (x - z) = b * 10 ^ (y - z)).
Proof.
  intros Hx Hy. unfold sci_eq. set (m := Z.min x y).
  replace (x - z) with ((x - m) + (m - z)) by lia. replace (y - z) with ((y - m) + (m - z)) by lia.
  rewrite !Z.pow_add_r by lia. pose proof (pow10_pos (m - z) ltac:(lia)). split; intros; nia.
Qed.

(** The first fourteen of a digit string starting with a nonzero digit. *)
Definition first14 (ds : list Z) : list Z := firstn 14 (ds ++ repeat 0 (14 - length ds)).
Lemma first14_text ds : firstn 14 (ljust_zero 14 (text_of ds)) = text_of (first14 ds).
Proof.
  unfold first14, ljust_zero, text_of. rewrite map_length.
  assert (R : forall n, repeat 48 n = map (fun d => d + 48) (repeat 0 n)) by (induction n as [|n IH]; [reflexivity|]; cbn [repeat map]; now rewrite IH).
  rewrite R, <- map_app, firstn_map. reflexivity.
Qed.
Lemma number_repeat0 n : number (repeat 0 n) = 0.
Proof.
  induction n; auto.
Qed.
Lemma zlen_repeat (x : Z) n : zlen (repeat x n) = Z.of_nat n. Proof. unfold zlen. now rewrite repeat_length. Qed.
Lemma first14_digits ds : Forall digit ds -> Forall digit (first14 ds) /\ length (first14 ds) = 14%nat.
Proof.
  intros H. unfold first14. split.
  - apply Forall_firstn, Forall_app. split; auto. apply Forall_forall. intros x I. apply repeat_spec in I. subst. unfold digit. lia.
  - rewrite firstn_length, app_length, repeat_length. lia.
Qed.
Lemma first14_truncated d G y : Forall digit (d :: G) -> 0 < d ->
  truncated14 (number (d :: G)) y (number (first14 (d :: G))) (y + zlen G - 13).
Proof.
  intros H P. destruct (first14_digits _ H) as [D14 L14].
  assert (ND : forall ds, Forall digit ds -> 0 <= number ds < 10 ^ zlen ds) by (intros; rewrite number_dec; now apply dec_value_bound).
  assert (M : 10 ^ 13 <= number (first14 (d :: G)) < 10 ^ 14).
  { split.
    - destruct (first14 (d :: G)) as [|x r] eqn:E; [cbn in L14; lia|].
      assert (x = d) as -> by (unfold first14 in E; cbn in E; congruence).
      rewrite number_dec, dec_value_cons. inversion D14; subst. pose proof (dec_value_bound r H3).
      assert (zlen r = 13) as Lr by (unfold zlen; cbn in L14; lia). rewrite Lr in *. nia.
    - specialize (ND _ D14). unfold zlen in ND. rewrite L14 in ND. apply ND. }
  split; [exact M|]. clear M.
  destruct (Nat.le_gt_cases (length (d :: G)) 14) as [Le|Gt].
  - (* padded *)
    set (k := (14 - length (d :: G))%nat) in *.
    assert (E : number (first14 (d :: G)) = number (d :: G) * 10 ^ Z.of_nat k).
    { unfold first14. fold k. rewrite firstn_ge by (rewrite app_length, repeat_length; unfold k in *; lia).
      rewrite number_dec, dec_value_app, <- !number_dec, number_repeat0, zlen_repeat. lia. }
    assert (K : y + zlen G - 13 = y - Z.of_nat k) by (unfold zlen, k in *; cbn [length] in *; lia).
    rewrite K, E. pose proof (pow10_pos (Z.of_nat k) ltac:(lia)).
    rewrite (scale_le _ _ _ _ (y - Z.of_nat k)), (scale_lt _ _ _ _ (y - Z.of_nat k)) by lia.
    rewrite Z.sub_diag. replace (y - (y - Z.of_nat k)) with (Z.of_nat k) by lia. change (10 ^ 0) with 1. lia.
  - (* cut *)
    assert (E : first14 (d :: G) = firstn 14 (d :: G)).
    { unfold first14. replace (14 - length (d :: G))%nat with 0%nat by lia. cbn [repeat]. now rewrite app_nil_r. }
    pose proof (firstn_skipn 14 (d :: G)) as S. set (r := skipn 14 (d :: G)) in *.
    assert (N : number (d :: G) = number (first14 (d :: G)) * 10 ^ zlen r + number r).
    { rewrite E. rewrite <- S at 1. now rewrite number_dec, dec_value_app. }
    assert (Dr : Forall digit r) by (apply Forall_skipn; auto).
    specialize (ND r Dr).
    assert (K : y + zlen G - 13 = y + zlen r).
    { assert (zlen (d :: G) = 14 + zlen r). { rewrite <- S at 1. rewrite zlen_app. f_equal. rewrite <- E. unfold zlen. now rewrite L14. }
      rewrite zlen_cons in H0. lia. }
    rewrite K, N. pose proof (zlen_nonneg r).
    rewrite (scale_le _ _ _ _ y), (scale_lt _ _ _ _ y) by lia.
    replace (y + zlen r - y) with (zlen r) by lia. rewrite Z.sub_diag. change (10 ^ 0) with 1. nia.
Qed.
Lemma number_split_zeros ds : Forall digit ds ->
  (number ds = 0 /\ ds = repeat 0 (length ds)) \/
  exists k d G, ds = repeat 0 k ++ d :: G /\ 0 < d /\ digit d /\ Forall digit G /\ number ds = number (d :: G).
Proof.
  induction 1 as [|x ds Hx H [[N E]|(k & d & G & E & P & Dd & DG & N)]].
  - left. auto.
  - destruct (Z.eq_dec x 0) as [->|Nx].
    + left. split; [|cbn; congruence]. rewrite number_dec, dec_value_cons, <- number_dec, N. lia.
    + right. exists 0%nat, x, ds. unfold digit in Hx. repeat split; auto; try lia; unfold digit; lia.
  - destruct (Z.eq_dec x 0) as [->|Nx].
    + right. exists (S k), d, G. repeat split; auto; try apply Dd. { cbn. now rewrite <- E. }
    + right. exists 0%nat, x, ds. unfold digit in Hx. repeat split; auto; try lia.
Qed.

(** * Parsing a literal *)
Lemma squash_filter s : squash s = filter (fun c => negb (is_space c)) s. Proof. reflexivity. Qed.
(** The text after normalisation. *)
Definition canon_sign (s : str) : str := if negative s then [45] else if leqb s (s2l "+") then [43] else [].
Definition canon (l : literal) : str :=
  canon_sign (l_sign l) ++ text_of (l_int l) ++ [46] ++ text_of (frac_digits l) ++ [101] ++
  match l_exp l with Some (_, s, ds) => canon_sign s ++ text_of ds | None => [48] end.
Lemma lower_sign s : is_sign s -> str_replace (s2l "~") (s2l "-") (lower s) = canon_sign s.
Proof. intros [<-|[<-|[<-|[<-|[]]]]]; reflexivity. Qed.
Lemma lower_sign_in s c : is_sign s -> In c (canon_sign s) -> c = 43 \/ c = 45.
Proof. intros [<-|[<-|[<-|[<-|[]]]]]; let v := fresh in intros v; vm_compute in v; intuition lia. Qed.
Lemma replace1_app c rep a b : str_replace [c] rep (a ++ b) = str_replace [c] rep a ++ str_replace [c] rep b.
Proof.
  unfold str_replace. induction a as [|x a IH]; auto. cbn [app str_replace_aux starts_with].
  destruct ((c =? x) && true); cbn [length pred]; rewrite IH; [now rewrite app_assoc|reflexivity].
Qed.
Lemma replace1_text c rep ds : Forall digit ds -> (c < 48 \/ 57 < c) -> str_replace [c] rep (text_of ds) = text_of ds.
Proof. intros. apply str_replace_none. now apply text_not_in. Qed.

Lemma in_app3 {A} (x : A) a b : ~ In x a -> ~ In x b -> ~ In x (a ++ b).
Proof. intros H1 H2 I. apply in_app_or in I. tauto. Qed.
Lemma not_in_cons (x y : Z) a : x <> y -> ~ In x a -> ~ In x (y :: a).
Proof. intros H1 H2 [I|I]; auto. Qed.
Lemma sign_not_in c s : is_sign s -> c <> 43 -> c <> 45 -> ~ In c (canon_sign s).
Proof. intros H N1 N2 I. apply lower_sign_in in I; auto. lia. Qed.
Ltac notin := repeat first
  [ apply in_app3 | apply not_in_cons; [lia|] | (apply sign_not_in; [assumption|lia|lia]) | (apply text_not_in; [assumption|lia]) | (intros []) ].

Definition norm1 (l : literal) : str :=
  canon_sign (l_sign l) ++ text_of (l_int l) ++
  match l_frac l with Some f => [46] ++ text_of f | None => [] end ++
  match l_exp l with Some (_, s, ds) => [101] ++ canon_sign s ++ text_of ds | None => [] end.
Lemma normalise l s : lit_wf l -> squash s = lit_text l ->
  replacer (lower (squash s)) [(s2l "~", s2l "-"); (s2l "|e", s2l "e")] = norm1 l.
Proof.
  intros (HS & HI & HF & _ & HE) ->. unfold replacer. cbn [fold_left fst snd].
  unfold lit_text. rewrite !lower_app. change (s2l "~") with [126]. rewrite !replace1_app.
  rewrite lower_sign by auto. rewrite lower_text, replace1_text by (auto || lia).
  assert (FR : str_replace [126] (s2l "-") (lower match l_frac l with Some f => s2l "." ++ text_of f | None => [] end)
             = match l_frac l with Some f => [46] ++ text_of f | None => [] end).
  { unfold frac_digits in HF. destruct (l_frac l) as [f|]; [|reflexivity].
    rewrite lower_app, replace1_app, lower_text, replace1_text by (auto || lia). reflexivity. }
  unfold str, bytes in *. rewrite FR. clear FR.
  assert (NF : ~ In 124 match l_frac l with Some f => [46] ++ text_of f | None => [] end).
  { unfold frac_digits in HF. destruct (l_frac l) as [f|]; [|intros []]. notin. }
  change (s2l "|e") with (124 :: [101]). unfold norm1.
  rewrite str_replace_app by notin. rewrite str_replace_app by notin. rewrite str_replace_app by exact NF.
  do 3 f_equal. destruct (l_exp l) as [[[e s'] ds]|]; [|reflexivity]. destruct HE as (HM & HS' & HD & _).
  rewrite !lower_app, !replace1_app, (lower_text ds), (replace1_text _ _ ds) by (auto || lia). change [126] with (s2l "~"). rewrite (lower_sign s') by auto.
  assert (N : ~ In 124 (canon_sign s' ++ text_of ds)).
  { apply in_app3; [apply sign_not_in; auto; lia|apply text_not_in; auto; lia]. }
  destruct HM as [<-|[<-|[<-|[<-|[]]]]];
  match goal with |- str_replace _ _ (?x ++ _) = _ => let v := eval vm_compute in x in change x with v end.
  - rewrite str_replace_app by notin. rewrite str_replace_none by auto. reflexivity.
  - rewrite str_replace_app by notin. rewrite str_replace_none by auto. reflexivity.
  - rewrite str_replace_hit. rewrite str_replace_none by auto. reflexivity.
  - rewrite str_replace_hit. rewrite str_replace_none by auto. reflexivity.
Qed.
Lemma add_exp l : lit_wf l ->
  (let s := norm1 l in
   let s := if memb 101 s then s else s ++ s2l "e0" in
   if memb 46 s then s else str_replace (s2l "e") (s2l ".e") s) = canon l.
Proof.
  intros (HS & HI & HF & _ & HE). unfold norm1, canon, frac_digits in *. cbv zeta.
  set (A := canon_sign (l_sign l)) in *. assert (NA : forall c, c <> 43 -> c <> 45 -> ~ In c A) by (intros; now apply sign_not_in).
  clearbody A. set (I := text_of (l_int l)) in *. assert (NI : forall c, (c < 48 \/ 57 < c) -> ~ In c I) by (intros; now apply text_not_in).
  clearbody I. assert (NX : forall s ds c, is_sign s -> Forall digit ds -> c <> 43 -> c <> 45 -> (c < 48 \/ 57 < c) -> ~ In c (canon_sign s ++ text_of ds)).
  { intros. notin. }
  destruct (l_frac l) as [f|]; destruct (l_exp l) as [[[e s] ds]|]; try destruct HE as (_ & Hs & Hd & _).
  - replace (memb 101 _) with true by (symmetry; apply memb_spec; rewrite !in_app_iff; cbn; tauto).
    replace (memb 46 _) with true by (symmetry; apply memb_spec; rewrite !in_app_iff; cbn; tauto).
    rewrite <- !app_assoc. reflexivity.
  - replace (memb 101 _) with false.
    2:{ symmetry. apply memb_false. rewrite app_nil_r. apply in_app3; [apply NA; lia|]. apply in_app3; [apply NI; lia|]. notin. }
    replace (memb 46 _) with true by (symmetry; apply memb_spec; rewrite !in_app_iff; cbn; tauto).
    rewrite app_nil_r, <- !app_assoc. reflexivity.
  - cbn [app]. replace (memb 101 _) with true by (symmetry; apply memb_spec; rewrite !in_app_iff; cbn; tauto).
    replace (memb 46 _) with false.
    2:{ symmetry. apply memb_false. apply in_app3; [apply NA; lia|]. apply in_app3; [apply NI; lia|]. apply not_in_cons; [lia|]. apply NX; auto; lia. }
    change (s2l "e") with (101 :: []). rewrite str_replace_app by (apply NA; lia). rewrite str_replace_app by (apply NI; lia).
    change (101 :: canon_sign s ++ text_of ds) with ([101] ++ (canon_sign s ++ text_of ds)). rewrite str_replace_hit.
    rewrite str_replace_none by (apply NX; auto; lia). reflexivity.
  - cbn [app]. rewrite app_nil_r. replace (memb 101 _) with false.
    2:{ symmetry. apply memb_false. apply in_app3; [apply NA; lia|]. apply NI; lia. }
    replace (memb 46 _) with false.
    2:{ symmetry. apply memb_false. apply in_app3; [|cbn; lia]. apply in_app3; [apply NA; lia|]. apply NI; lia. }
    change (s2l "e") with (101 :: []). rewrite <- app_assoc. rewrite str_replace_app by (apply NA; lia). rewrite str_replace_app by (apply NI; lia).
    reflexivity.
Qed.
Lemma canon_neg l : lit_wf l -> starts_with (s2l "-") (canon l) = lit_neg l.
Proof.
  intros (HS & HI & _). unfold canon, lit_neg.
  destruct HS as [<-|[<-|[<-|[<-|[]]]]]; cbn; auto.
  destruct (l_int l) as [|d r]; [reflexivity|]. inversion HI; subst. unfold digit in *. cbn. lia.
Qed.
Lemma canon_strip l : lit_wf l -> strip (s2l "+-") (canon l) =
  text_of (l_int l) ++ [46] ++ text_of (frac_digits l) ++ [101] ++
  match l_exp l with Some (_, s, ds) => canon_sign s ++ text_of ds | None => [48] end.
Proof.
  intros (HS & HI & _ & _ & HE). unfold canon, strip.
  rewrite lstrip_app by (destruct HS as [<-|[<-|[<-|[<-|[]]]]]; repeat constructor; cbn; tauto).
  rewrite lstrip_id.
  2:{ intros c r E. destruct (l_int l) as [|d q]; injection E as <- _; cbn; [lia|]. inversion HI; subst. unfold digit in *. lia. }
  destruct (l_exp l) as [[[e s] ds]|].
  - destruct HE as (_ & _ & Hd & Nd). destruct (exists_last Nd) as (q & d & ->). unfold text_of. rewrite map_app. cbn [map].
    rewrite !app_assoc. apply rstrip_snoc_id. apply Forall_app in Hd as [_ Hd]. inversion Hd; subst. unfold digit in *. cbn. lia.
  - rewrite !app_assoc. apply rstrip_snoc_id. cbn. lia.
Qed.
Lemma parse_signed s ds : is_sign s -> Forall digit ds -> ds <> [] ->
  parse_int 10 (canon_sign s ++ text_of ds) = Ok (if negative s then - number ds else number ds).
Proof.
  intros HS Hd N. pose proof (parse_text ds Hd N) as P.
  assert (Q : match parse_digits 10 (text_of ds) 0 false with Some v => Ok v | None => Err ValueError end = Ok (number ds)).
  { revert P. unfold parse_int. destruct (text_of ds) as [|c t] eqn:E; auto.
    assert (48 <= c <= 57) by (apply (text_in c ds); auto; rewrite E; now left).
    destruct (c =? 45) eqn:E1; [lia|]. destruct (c =? 43) eqn:E2; [lia|]. auto. }
  destruct HS as [<-|[<-|[<-|[<-|[]]]]].
  - exact P.
  - exact Q.
  - unfold parse_int. change (canon_sign (s2l "-") ++ text_of ds) with (45 :: text_of ds). cbn [Z.eqb Pos.eqb]. rewrite Q. reflexivity.
  - unfold parse_int. change (canon_sign (s2l "~") ++ text_of ds) with (45 :: text_of ds). cbn [Z.eqb Pos.eqb]. rewrite Q. reflexivity.
Qed.

(** What [real_parse] makes of a literal. *)
Lemma real_parse_literal l s : lit_wf l -> squash s = lit_text l ->
  (lit_coef l = 0 -> real_parse s = Ok (0, 128, lit_neg l)) /\ (lit_coef l <> 0 -> exists m x, real_parse s = Ok (m, x, lit_neg l) /\ truncated14 (lit_coef l) (lit_scale l) m (x - 141)).
Proof.
  intros W Sq. destruct s as [|c0 s0] eqn:Es.
  { (* the empty text *)
    cbn in Sq. destruct l as [ls li lf le]. unfold lit_text in Sq. cbn [l_sign l_int l_frac l_exp] in Sq.
    destruct ls; [|discriminate Sq]. destruct li; [|discriminate Sq]. destruct lf; [discriminate Sq|].
    destruct le as [[[e s'] ds]|]; [|].
    - destruct W as (_ & _ & _ & _ & HM & _). cbn in HM. destruct HM as [<-|[<-|[<-|[<-|[]]]]]; discriminate Sq.
    - split; [reflexivity|]. intros H. exfalso. apply H. reflexivity. }
  rewrite <- Es in *. assert (Ne : s <> []) by congruence. clear Es c0 s0.
  unfold real_parse. destruct s as [|c0 s0] eqn:Es; [congruence|]. rewrite <- Es in *. clear Es Ne.
  rewrite (normalise l s W Sq). pose proof (add_exp l W) as AE. cbv zeta in AE |- *. rewrite AE. clear AE.
  rewrite (canon_neg l W), (canon_strip l W).
  destruct W as (HS & HI & HF & HL & HE).
  set (X := match l_exp l with Some (_, s', ds) => canon_sign s' ++ text_of ds | None => [48] end).
  assert (HX : parse_int 10 (or_zero X) = Ok (exp_value l) /\ ~ In 101 X).
  { unfold X, exp_value. destruct (l_exp l) as [[[e s'] ds]|].
    - destruct HE as (_ & Hs & Hd & Nd). split.
      + unfold or_zero. destruct (canon_sign s' ++ text_of ds) eqn:E. { apply app_eq_nil in E as [_ E]. destruct ds; [congruence|discriminate]. }
        rewrite <- E. now apply parse_signed.
      + notin.
    - split; [reflexivity|]. cbn. lia. }
  destruct HX as [HX NX]. clearbody X.
  replace (text_of (l_int l) ++ [46] ++ text_of (frac_digits l) ++ [101] ++ X)
    with ((text_of (l_int l) ++ 46 :: text_of (frac_digits l)) ++ 101 :: X) by (rewrite <- app_assoc; reflexivity).
  rewrite split_on_app, split_on_none by (auto; notin; apply text_not_in; auto; lia).
  rewrite split_on_app, split_on_none by (apply text_not_in; auto; lia).
  rewrite !or_zero_text. set (I := match l_int l with [] => [0] | _ => l_int l end).
  set (F := match frac_digits l with [] => [0] | _ => frac_digits l end).
  assert (NI : I <> []) by (unfold I; destruct (l_int l); discriminate).
  assert (NF : F <> []) by (unfold F; destruct (frac_digits l); discriminate).
  assert (Z0 : digit 0) by (unfold digit; lia).
  assert (DI : Forall digit I) by (unfold I; destruct (l_int l); auto).
  assert (DF : Forall digit F) by (unfold F; destruct (frac_digits l); auto).
  rewrite !parse_text by auto. cbn [rbind].
  assert (EI : number I = number (l_int l)) by (unfold I; apply number_or_zero).
  assert (EF : number F = number (frac_digits l)) by (unfold F; apply number_or_zero).
  assert (NN : forall ds, Forall digit ds -> 0 <= number ds) by (intros ds D; rewrite number_dec; now apply dec_value_bound).
  assert (C : lit_coef l = number (l_int l) * 10 ^ zlen (frac_digits l) + number (frac_digits l)).
  { unfold lit_coef. now rewrite number_dec, dec_value_app. }
  pose proof (pow10_pos (zlen (frac_digits l)) (zlen_nonneg _)) as PP.
  pose proof (NN _ HI) as N1. pose proof (NN _ HF) as N2.
  split.
  - intros Z. rewrite Z in C. assert (number (l_int l) = 0) by nia. assert (number (frac_digits l) = 0) by nia.
    replace ((number I =? number F) && (number F =? 0)) with true by lia. reflexivity.
  - intros NZ. replace ((number I =? number F) && (number F =? 0)) with false.
    2:{ symmetry. apply andb_false_iff. destruct (Z.eq_dec (number F) 0) as [Q|Q]; [left|right; lia].
        destruct (Z.eq_dec (number I) (number F)) as [Q2|Q2]; [|lia]. exfalso. apply NZ. rewrite C. rewrite <- EI, <- EF, Q2, Q. lia. }
    rewrite HX. cbn [rbind]. rewrite !text_length.
    destruct (Z.eq_dec (number I) 0) as [ZI|ZI].
    + (* integer part zero *)
      destruct (number_split_zeros F DF) as [[ZF _]|(k & d & G & E & P & Dd & DG & NG)].
      { exfalso. apply NZ. rewrite C, <- EI, <- EF, ZI, ZF. lia. }
      assert (F = frac_digits l) as EFl. { unfold F in *. destruct (frac_digits l); auto. destruct k; cbn in E; [injection E as <- _; lia|]. destruct k; discriminate E. }
      rewrite (shift_zero k I _ d (text_of G)); auto.
      2:{ rewrite E. unfold text_of. rewrite map_app. cbn [map]. f_equal. clear. induction k as [|k IH]; [reflexivity|]. cbn [repeat map]. now rewrite IH. }
      2:{ rewrite E, app_length, repeat_length. destruct I; [congruence|]. cbn [length]. lia. }
      cbn [rbind]. change (text_of [d] ++ text_of G) with (text_of (d :: G)). rewrite first14_text, parse_text.
      2:{ apply first14_digits. auto. } 2:{ intros Q. assert (DD : Forall digit (d :: G)) by auto. apply first14_digits in DD. rewrite Q in DD. destruct DD; discriminate. }
      cbn [rbind]. do 2 eexists. split; [reflexivity|].
      assert (EC : lit_coef l = number (d :: G)) by (rewrite C, <- EI, <- EF, ZI, NG; lia).
      rewrite EC. pose proof (first14_truncated d G (lit_scale l) ltac:(auto) P) as T.
      replace (exp_value l - Z.of_nat k - 1 + 128 - 141) with (lit_scale l + zlen G - 13); auto.
      unfold lit_scale. rewrite <- EFl, E, zlen_app, zlen_repeat, zlen_cons. lia.
    + (* integer part positive *)
      assert (EIl : I = l_int l). { unfold I in *. destruct (l_int l); auto. exfalso. apply ZI. reflexivity. }
      destruct I as [|d J] eqn:EI0; [congruence|].
      assert (P : 0 < d). { inversion DI; subst. unfold digit in *. rewrite <- EIl in HL. cbn [hd] in HL. destruct (Z.eq_dec d 0) as [->|]; [|lia]. exfalso. apply ZI. now apply HL. }
      rewrite shift_big by (auto; cbn [length]; lia). cbn [rbind]. rewrite <- app_comm_cons || idtac.
      assert (TX : text_of [d] ++ text_of J ++ text_of F = text_of (d :: J ++ F)) by (unfold text_of; cbn; now rewrite map_app).
      rewrite TX. assert (DD : Forall digit (d :: J ++ F)). { inversion DI; subst. constructor; auto. apply Forall_app; auto. }
      rewrite first14_text, parse_text.
      2:{ apply first14_digits. auto. } 2:{ intros Q. apply first14_digits in DD. rewrite Q in DD. destruct DD; discriminate. }
      cbn [rbind]. do 2 eexists. split; [reflexivity|].
      pose proof (first14_truncated d (J ++ F) (lit_scale l + zlen (frac_digits l) - zlen F) DD P) as T.
      replace (exp_value l + zlen J + 128 - 141) with (lit_scale l + zlen (frac_digits l) - zlen F + zlen (J ++ F) - 13).
      2:{ unfold lit_scale. rewrite zlen_app. lia. }
      unfold F in *. destruct (frac_digits l) as [|f0 fr] eqn:EFr.
      * (* no fraction digits: one zero was appended *)
        change (zlen (@nil Z)) with 0 in *. change (zlen [0]) with 1 in *.
        assert (EC : lit_coef l * 10 = number (d :: J ++ [0])).
        { rewrite C. change (number []) with 0. rewrite <- EI. change (d :: J ++ [0]) with ((d :: J) ++ [0]). rewrite (number_dec (_ ++ _)), dec_value_snoc, number_dec. change (10 ^ 0) with 1. lia. }
        rewrite <- EC in T. destruct T as (T1 & T2 & T3). split; [exact T1|].
        set (x := lit_scale l + 0 - 1 + zlen (J ++ [0]) - 13) in *. clearbody x.
        set (z := Z.min (lit_scale l) x - 1).
        rewrite (scale_le _ _ _ _ z) in T2 by lia. rewrite (scale_lt _ _ _ _ z) in T3 by lia. rewrite (scale_le _ _ _ _ z), (scale_lt _ _ _ _ z) by lia.
        replace (lit_scale l + 0 - 1 - z) with (lit_scale l - 1 - z) in * by lia.
        replace (lit_scale l - z) with (Z.succ (lit_scale l - 1 - z)) by lia. rewrite Z.pow_succ_r by lia. split; lia.
      * assert (EC : lit_coef l = number (d :: J ++ f0 :: fr)).
        { unfold lit_coef. now rewrite <- EIl, EFr. }
        rewrite EC. replace (lit_scale l + zlen (f0 :: fr) - zlen (f0 :: fr)) with (lit_scale l) in * by lia. exact T.
Qed.

(** * Storing *)
Lemma list9 (b : bytes) : length b = 9%nat ->
  exists c0 c1 c2 c3 c4 c5 c6 c7 c8, b = [c0; c1; c2; c3; c4; c5; c6; c7; c8].
Proof.
  intros H. do 9 (destruct b as [|? b]; [cbn in H; lia|]). destruct b; [|cbn in H; lia]. repeat eexists.
Qed.
Lemma bytes7 (b : bytes) : length b = 7%nat -> exists c0 c1 c2 c3 c4 c5 c6, b = [c0; c1; c2; c3; c4; c5; c6].
Proof.
  intros H. do 7 (destruct b as [|? b]; [cbn in H; lia|]). destruct b; [|cbn in H; lia]. repeat eexists.
Qed.
Definition mant (m : Z) : bytes := rev (bcd_le 7 m).
Lemma mant7 m : length (mant m) = 7%nat. Proof. unfold mant. now rewrite rev_length, bcd_le_length. Qed.
Lemma set_mantissa_ok m c0 c1 r : length r = 7%nat -> 0 <= m < 10 ^ 14 ->
  set_mantissa m (Buf true (c0 :: c1 :: r)) = ([], Ok (Buf true (c0 :: c1 :: mant m))).
Proof.
  intros L H. unfold set_mantissa. rewrite bcd_set_value by exact H. fold (mant m).
  destruct (bytes7 _ (mant7 m)) as (d0 & d1 & d2 & d3 & d4 & d5 & d6 & ->).
  destruct (bytes7 _ L) as (x0 & x1 & x2 & x3 & x4 & x5 & x6 & ->). reflexivity.
Qed.
Lemma set_mantissa_err m b : ~ 0 <= m < 10 ^ 14 -> set_mantissa m b = ([], Err OverflowError).
Proof. intros H. unfold set_mantissa. rewrite bcd_set_refuse by exact H. reflexivity. Qed.
Lemma set_exponent_ok x c0 c1 r : length r = 7%nat -> is_byte x ->
  set_exponent x (Buf true (c0 :: c1 :: r)) = ([], Ok (Buf true (c0 :: x :: r))).
Proof.
  intros L H. unfold set_exponent, integer_set, to_bytes_le.
  replace (fits 1 x) with true by (symmetry; apply fits_spec; unfold is_byte in H; cbn; lia).
  destruct (bytes7 _ L) as (x0 & x1 & x2 & x3 & x4 & x5 & x6 & ->). cbn [le_bytes].
  rewrite Z.mod_small by (unfold is_byte in H; lia). reflexivity.
Qed.
Lemma set_exponent_err x b : ~ is_byte x -> set_exponent x b = ([], Err OverflowError).
Proof.
  intros H. unfold set_exponent. replace (integer_set x (Some 1%nat)) with (@Err bytes OverflowError); [reflexivity|].
  symmetry. apply integer_refuse. exact H.
Qed.
Lemma set_sign_ok v c0 r : length r = 8%nat -> is_byte c0 ->
  set_sign (Z.b2z v) (Buf true (c0 :: r)) = ([], Ok (Buf true (c0 mod 128 + (if v then 128 else 0) :: r))).
Proof.
  intros L H. destruct (list9 (c0 :: r)) as (x0 & x1 & x2 & x3 & x4 & x5 & x6 & x7 & x8 & E); [cbn; lia|].
  injection E as <- ->. unfold set_sign. change (view_get _ _) with [c0].
  destruct (bits_set_spec 7 8 (Z.b2z v) c0) as (ws & q & EB & F & W & _); [lia|auto|]. unfold bytes in *. rewrite EB. clear EB.
  assert (ws = []) as -> by (apply W; destruct v; reflexivity).
  assert (q = c0 mod 128 + (if v then 128 else 0)) as ->.
  { revert F. unfold is_byte in H. clear -H. intros [Hq F]. 
    assert (C : forall i, 0 <= i < 8 -> Z.testbit q i = if i =? 7 then v else Z.testbit c0 i).
    { intros i Hi. specialize (F (Z.to_nat i) ltac:(lia)). rewrite Z2Nat.id in F by lia. rewrite F.
      destruct (i =? 7) eqn:E.
      - assert (i = 7) by lia. subst. destruct v; reflexivity.
      - replace ((7 <=? Z.to_nat i)%nat) with false by (symmetry; apply Nat.leb_gt; lia). reflexivity. }
    unfold is_byte in Hq.
    assert (q mod 128 = c0 mod 128).
    { apply Z.bits_inj'. intros n Hn. change 128 with (2 ^ 7). destruct (Z.lt_ge_cases n 7).
      - rewrite !Z.mod_pow2_bits_low by lia. rewrite C by lia. replace (n =? 7) with false by lia. reflexivity.
      - rewrite !Z.mod_pow2_bits_high by lia. reflexivity. }
    assert (Z.testbit q 7 = v) by (rewrite C by lia; reflexivity).
    rewrite Z.testbit_true in H1 || rewrite Z.testbit_eqb in H1 by lia. change (2 ^ 7) with 128 in *.
    destruct v; lia. }
  reflexivity.
Qed.
Lemma mant_get m c0 c1 : 0 <= m < 10 ^ 14 -> get_mantissa (Buf true (c0 :: c1 :: mant m)) = m.
Proof.
  intros H. unfold get_mantissa.
  replace (view_get _ _) with (mant m).
  - unfold mant. apply bcd_get_bcd_le. exact H.
  - destruct (bytes7 _ (mant7 m)) as (d0 & d1 & d2 & d3 & d4 & d5 & d6 & ->). reflexivity.
Qed.
Lemma exp_get x c0 r : is_byte x -> length r = 7%nat -> get_exponent (Buf true (c0 :: x :: r)) = x.
Proof.
  intros H L. destruct (bytes7 _ L) as (x0 & x1 & x2 & x3 & x4 & x5 & x6 & ->). unfold get_exponent.
  change (view_get _ _) with [x]. unfold integer_get. cbn. lia.
Qed.
Lemma sign_get c0 r : is_byte c0 -> length r = 8%nat -> get_sign (Buf true (c0 :: r)) = Ok (c0 / 128).
Proof.
  intros H L. destruct (list9 (c0 :: r)) as (x0 & x1 & x2 & x3 & x4 & x5 & x6 & x7 & x8 & E); [cbn; lia|].
  injection E as <- ->. unfold get_sign. change (view_get _ _) with [c0]. rewrite bits_get_value by lia.
  unfold is_byte in H. change (2 ^ Z.of_nat 7) with 128. change (2 ^ Z.of_nat (8 - 7)) with 2. cbn [section_get]. f_equal. lia.
Qed.
Lemma mant_payload low neg x m : 0 <= m < 10 ^ 14 ->
  payload low neg x m (low + (if neg then 128 else 0) :: x :: mant m).
Proof.
  intros H. unfold payload. split; [cbn [length]; now rewrite mant7|]. split; [reflexivity|]. split; [reflexivity|].
  intros i Hi. pose proof (bcd_le_packed 7 m (mant m) eq_refl ltac:(lia) i) as P. rewrite mant7 in P. specialize (P Hi).
  rewrite <- P. rewrite rev_nth by (rewrite mant7; lia). rewrite mant7.
  replace (8 - i)%nat with (S (S (7 - S i))) by lia. reflexivity.
Qed.

(** Truncation is unique, and exact when there are at most 14 digits. *)
Lemma truncated14_unique n y m x m' x' : truncated14 n y m x -> truncated14 n y m' x' -> m = m' /\ x = x'.
Proof.
  assert (W : forall m x m' x', truncated14 n y m x -> truncated14 n y m' x' -> x <= x' -> m = m' /\ x = x').
  { clear. intros m x m' x' (A & B & C) (A' & B' & C') Le.
    set (z := Z.min x (Z.min y x')). rewrite (scale_le _ _ _ _ z) in B by lia. rewrite (scale_le _ _ _ _ z) in B' by lia. rewrite (scale_lt _ _ _ _ z) in C by lia. rewrite (scale_lt _ _ _ _ z) in C' by lia.
    set (N := n * 10 ^ (y - z)) in *. pose proof (pow10_pos (x - z) ltac:(lia)) as P.
    destruct (Z.eq_dec x x') as [<-|Ne]; [split; auto; nia|exfalso].
    assert (E : 10 ^ (x' - z) = 10 ^ (x - z) * 10 ^ (x' - x)) by (rewrite <- Z.pow_add_r by lia; f_equal; lia).
    assert (Q : 10 <= 10 ^ (x' - x)) by (change 10 with (10 ^ 1) at 1; apply Z.pow_le_mono_r; lia).
    set (p := 10 ^ (x - z)) in *. set (q := 10 ^ (x' - x)) in *. clearbody p q N. rewrite E in *.
    assert (m' * q < m + 1) by nia. assert (10 ^ 13 * 10 <= m' * q) by nia. lia. }
  intros H1 H2. destruct (Z.le_gt_cases x x') as [L|L]; [now apply W|].
  destruct (W _ _ _ _ H2 H1) as [-> ->]; auto; lia.
Qed.
Lemma truncated14_exact n y m x n' k : truncated14 n y m x -> 0 <= k -> n = n' * 10 ^ k -> n' < 10 ^ 14 ->
  sci_eq m x n y.
Proof.
  intros (A & B & C) K -> N'. set (z := Z.min x y).
  rewrite (scale_le _ _ _ _ z) in B by lia. rewrite (scale_lt _ _ _ _ z) in C by lia. rewrite (scale_eq _ _ _ _ z) by lia.
  rewrite <- Z.mul_assoc, <- Z.pow_add_r in * by lia. set (e := k + (y - z)) in *. assert (He : 0 <= e) by lia.
  destruct (Z.le_gt_cases (x - z) e) as [L|L].
  - replace (10 ^ e) with (10 ^ (x - z) * 10 ^ (e - (x - z))) in * by (rewrite <- Z.pow_add_r by lia; f_equal; lia).
    pose proof (pow10_pos (x - z) ltac:(lia)) as P. set (p := 10 ^ (x - z)) in *. set (q := 10 ^ (e - (x - z))) in *. clearbody p q.
    assert (m = n' * q) as -> by nia. ring.
  - exfalso. replace (10 ^ (x - z)) with (10 ^ e * 10 ^ (x - z - e)) in * by (rewrite <- Z.pow_add_r by lia; f_equal; lia).
    pose proof (pow10_pos e He). assert (Q : 10 <= 10 ^ (x - z - e)) by (change 10 with (10 ^ 1) at 1; apply Z.pow_le_mono_r; lia).
    set (p := 10 ^ e) in *. set (q := 10 ^ (x - z - e)) in *. clearbody p q. assert (m * q <= n') by nia. nia.
Qed.
Lemma truncated14_pos n y m x : truncated14 n y m x -> 0 < n.
Proof.
  intros (A & B & _). set (z := Z.min x y). rewrite (scale_le _ _ _ _ z) in B by lia.
  pose proof (pow10_pos (x - z) ltac:(lia)). pose proof (pow10_pos (y - z) ltac:(lia)). nia.
Qed.
Lemma truncated14_cong n y n' y' m x : sci_eq n y n' y' -> truncated14 n y m x -> truncated14 n' y' m x.
Proof.
  intros E (A & B & C). split; auto. set (z := Z.min x (Z.min y y')).
  rewrite (scale_le _ _ _ _ z) in B by lia. rewrite (scale_lt _ _ _ _ z) in C by lia. rewrite (scale_eq _ _ _ _ z) in E by lia.
  rewrite (scale_le _ _ _ _ z), (scale_lt _ _ _ _ z) by lia. 
  rewrite <- E. split; auto.
Qed.

(** What loading leaves behind. *)
Definition stored (c0 : Z) (neg : bool) (x m : Z) : buffer :=
  Buf true (c0 mod 128 + (if neg then 128 else 0) :: x :: mant m).
Lemma steps3 c0 c1 r m x neg : length r = 7%nat -> is_byte c0 -> 0 <= m < 10 ^ 14 ->
  run_steps [set_mantissa m; set_exponent x; set_sign (Z.b2z neg)] (Buf true (c0 :: c1 :: r)) =
  if is_byteb x then (stored c0 neg x m, oret tt) else (Buf true (c0 :: c1 :: mant m), oerr OverflowError).
Proof.
  intros L H M. cbn [run_steps]. rewrite set_mantissa_ok by auto. destruct (is_byteb x) eqn:E.
  - apply is_byteb_spec in E. rewrite set_exponent_ok by auto using mant7.
    rewrite set_sign_ok by (auto; cbn [length]; now rewrite mant7). reflexivity.
  - rewrite set_exponent_err; [reflexivity|]. intros B. apply is_byteb_spec in B. congruence.
Qed.
Lemma real_load_spec l s c0 c1 r : lit_wf l -> squash s = lit_text l -> length r = 7%nat -> is_byte c0 ->
  (lit_coef l = 0 -> real_load s (Buf true (c0 :: c1 :: r)) = (stored c0 (lit_neg l) 128 0, oret tt)) /\
  (lit_coef l <> 0 -> exists m x, truncated14 (lit_coef l) (lit_scale l) m (x - 141) /\
     real_load s (Buf true (c0 :: c1 :: r)) =
     if is_byteb x then (stored c0 (lit_neg l) x m, oret tt) else (Buf true (c0 :: c1 :: mant m), oerr OverflowError)).
Proof.
  intros W Sq L H. destruct (real_parse_literal l s W Sq) as [P0 P1]. unfold real_load. split.
  - intros Z0. rewrite (P0 Z0). rewrite steps3 by (auto; lia). reflexivity.
  - intros NZ. destruct (P1 NZ) as (m & x & E & T). exists m, x. split; auto. rewrite E.
    destruct T as [T _]. now rewrite steps3 by (auto; lia).
Qed.
Lemma stored_payload c0 neg x m : 0 <= m < 10 ^ 14 -> payload (c0 mod 128) neg x m (b_data (stored c0 neg x m)).
Proof. intros H. now apply mant_payload. Qed.
Lemma payload_stored low neg x m d : 0 <= low < 128 -> payload low neg x m d -> 0 <= m < 10 ^ 14 ->
  d = b_data (stored low neg x m).
Proof.
  intros HL (L & P0 & P1 & P) M. destruct (stored_payload low neg x m M) as (L' & Q0 & Q1 & Q).
  rewrite Z.mod_small in Q0 by lia. apply (nth_ext _ _ 0 0); [congruence|]. intros n Hn. rewrite L in Hn.
  destruct n as [|[|n]]; [congruence|congruence|].
  specialize (P (6 - n)%nat ltac:(lia)). specialize (Q (6 - n)%nat ltac:(lia)).
  replace (8 - (6 - n))%nat with (S (S n)) in * by lia. congruence.
Qed.
Lemma ndigits_le n k : 0 <= n < 10 ^ Z.of_nat k -> (1 <= k)%nat -> ndigits n <= Z.of_nat k.
Proof. intros H K. unfold ndigits, zlen. pose proof (digits_length_bound n k H K). lia. Qed.
Lemma real_decimal_stored c0 neg x m : is_byte c0 -> is_byte x -> 0 <= m < 10 ^ 14 ->
  real_decimal (stored c0 neg x m) = Ok (Dec (neg && negb (m =? 0)) m (x - 141)).
Proof.
  intros H X M. unfold real_decimal, stored. unfold is_byte in H.
  rewrite sign_get; [|unfold is_byte; destruct neg; lia|cbn [length]; now rewrite mant7]. cbn [rbind].
  rewrite mant_get, exp_get by auto using mant7. unfold dec_fix. cbn [d_coef].
  pose proof (ndigits_le m 14 M ltac:(lia)) as D. replace (ndigits m - 14 <=? 0) with true by lia.
  do 2 f_equal; [|lia]. destruct neg; cbn [andb]; [f_equal|]; destruct (m =? 0) eqn:E; cbn; lia.
Qed.

(** * Printing *)
Lemma trailing_zeros ds : exists G k, ds = G ++ repeat 0 k /\ (G = [] \/ exists G' d, G = G' ++ [d] /\ d <> 0).
Proof.
  induction ds as [|x ds (G & k & E & C)] using rev_ind.
  - exists [], 0%nat. auto.
  - destruct (Z.eq_dec x 0) as [->|N].
    + exists G, (S k). split; auto. rewrite E, <- app_assoc. f_equal. symmetry. apply repeat_cons.
    + exists (ds ++ [x]), 0%nat. split; [now rewrite app_nil_r|]. right. eauto.
Qed.
Lemma squash_id s : Forall (fun c => is_space c = false) s -> squash s = s.
Proof. unfold squash. induction 1 as [|c s H _ IH]; auto. cbn [filter]. rewrite H. cbn [negb]. now rewrite IH. Qed.
Lemma text_no_space ds : Forall digit ds -> Forall (fun c => is_space c = false) (text_of ds).
Proof.
  intros H. apply Forall_map. eapply Forall_impl; [|exact H]. unfold digit. intros d D. cbn. unfold is_space. lia.
Qed.
Definition pad14 (n : Z) : list Z := let ds := digits n in repeat 0 (14 - length ds) ++ ds.
Lemma pad14_spec n : 0 <= n < 10 ^ 14 -> Forall digit (pad14 n) /\ length (pad14 n) = 14%nat /\ number (pad14 n) = n.
Proof.
  intros H. unfold pad14. pose proof (digits_length_bound n 14 H ltac:(lia)) as L. repeat apply conj.
  - apply Forall_app. split; [|now apply digits_are_digits]. apply Forall_forall. intros x I. apply repeat_spec in I. subst. unfold digit. lia.
  - rewrite app_length, repeat_length. lia.
  - rewrite number_dec, dec_value_app, <- number_dec, number_repeat0, dec_value_digits by lia. lia.
Qed.
Definition fixed_text (neg : bool) (n : Z) : str :=
  (if neg then s2l "-" else []) ++ text_of (digits (n / 10 ^ 14)) ++ s2l "." ++ text_of (pad14 (n mod 10 ^ 14)).
Lemma text_repeat0 k : repeat 48 k = text_of (repeat 0 k).
Proof. induction k as [|k IH]; [reflexivity|]. cbn [repeat text_of map]. rewrite IH. reflexivity. Qed.
Lemma text_app a b : text_of (a ++ b) = text_of a ++ text_of b. Proof. apply map_app. Qed.
Lemma strip_fixed neg n : 0 <= n -> exists l, lit_wf l /\ lit_neg l = neg /\
  rstrip (s2l ".") (rstrip (s2l "0") (fixed_text neg n)) = lit_text l /\
  squash (lit_text l) = lit_text l /\ sci_eq (lit_coef l) (lit_scale l) n (-14) /\
  l_sign l = (if neg then s2l "-" else []) /\ l_int l <> [] /\ l_exp l = None.
Proof.
  intros H. set (i := n / 10 ^ 14). set (f := n mod 10 ^ 14).
  assert (Hi : 0 <= i) by (unfold i; lia). assert (Hf : 0 <= f < 10 ^ 14) by (unfold f; apply Z.mod_pos_bound; lia).
  destruct (pad14_spec f Hf) as (D & L & N). destruct (trailing_zeros (pad14 f)) as (G & k & E & C).
  assert (DG : Forall digit G) by (rewrite E in D; apply Forall_app in D; tauto).
  pose proof (digits_are_digits i Hi) as DI. fold is_digit in DI.
  assert (EN : f = number G * 10 ^ Z.of_nat k /\ zlen G + Z.of_nat k = 14).
  { split.
    - rewrite <- N, E, number_dec, dec_value_app, <- !number_dec, number_repeat0, zlen_repeat. lia.
    - rewrite <- (zlen_repeat 0 k), <- zlen_app, <- E. unfold zlen. now rewrite L. }
  destruct EN as [EN EK].
  set (l := Lit (if neg then s2l "-" else []) (digits i) (match G with [] => None | _ => Some G end) None).
  assert (FG : frac_digits l = G) by (unfold l, frac_digits; destruct G; reflexivity).
  exists l. assert (W : lit_wf l).
  { unfold lit_wf. rewrite FG. cbn [l l_sign l_int l_exp]. repeat apply conj; auto.
    - destruct neg; cbn; auto.
    - intros Z. destruct (Z.eq_dec i 0) as [->|]; [reflexivity|]. destruct (digits_head i ltac:(lia)) as (d & r & Ed & Hd). rewrite Ed in Z. cbn in Z. lia. }
  split; [exact W|]. split; [destruct neg; reflexivity|].
  assert (T : rstrip (s2l ".") (rstrip (s2l "0") (fixed_text neg n)) = lit_text l).
  { unfold fixed_text. fold i f. rewrite E, text_app. pose (S := if neg then s2l "-" else []).
    rewrite !app_assoc. rewrite rstrip_app.
    2:{ rewrite <- text_repeat0. apply Forall_forall. intros x I. apply repeat_spec in I. now left. }
    destruct C as [EG|(G' & d & EG & Nd)]; unfold lit_text, l; cbn [l_sign l_int l_frac l_exp]; rewrite EG.
    - cbn [text_of map]. rewrite app_nil_r. change (s2l ".") with [46] at 2. rewrite rstrip_snoc_id by (cbn; lia).
      rewrite rstrip_app by (constructor; [now left|constructor]).
      destruct (exists_last (digits_nonempty i Hi)) as (q & d & Ed).
      assert (Dd : digit d). { rewrite Ed in DI. apply Forall_app in DI as [_ DI]. now inversion DI. }
      rewrite !app_nil_r. rewrite Ed. fold S. change (map (fun d0 => d0 + 48) (q ++ [d])) with (text_of (q ++ [d])). rewrite text_app, app_assoc.
      fold S. rewrite (app_assoc S). apply rstrip_snoc_id. unfold digit in Dd. cbn. lia.
    - assert (Dd : digit d). { rewrite EG in DG. apply Forall_app in DG as [_ DG]. now inversion DG. } unfold digit in Dd.
      destruct (G' ++ [d]) eqn:Q; [destruct G'; discriminate|]. rewrite <- Q.
      rewrite text_app, !app_assoc. cbn [text_of map]. rewrite rstrip_snoc_id by (cbn; lia).
      rewrite rstrip_snoc_id by (cbn; lia). fold S. rewrite app_nil_r. repeat rewrite <- app_assoc. reflexivity. }
  split; [exact T|]. split.
  - apply squash_id. unfold lit_text. apply Forall_app; split; [|apply Forall_app; split; [apply text_no_space; auto|apply Forall_app; split; [|constructor]]].
    + unfold l. cbn [l_sign]. destruct neg; repeat constructor.
    + unfold l. cbn [l_frac]. destruct G; [constructor|]. apply Forall_app. split; [repeat constructor|]. now apply text_no_space.
  - split; [|split; [reflexivity|split; [exact (digits_nonempty i Hi)|reflexivity]]].
    unfold lit_coef, lit_scale. rewrite FG. change (exp_value l) with 0. change (l_int l) with (digits i).
    rewrite (scale_eq _ _ _ _ (-14)) by lia. rewrite number_dec, dec_value_app, dec_value_digits by auto.
    change (dec_value G) with (number G). replace (0 - zlen G - -14) with (Z.of_nat k) by lia. rewrite Z.sub_diag. change (10 ^ 0) with 1.
    pose proof (Z.div_mod n (10 ^ 14) ltac:(lia)) as DM. fold i f in DM. 
    assert (10 ^ 14 = 10 ^ zlen G * 10 ^ Z.of_nat k) by (rewrite <- Z.pow_add_r by (try apply zlen_nonneg; lia); f_equal; lia).
    nia.
Qed.
Lemma half_even_spec n d : 0 < d -> 2 * Z.abs (n - half_even n d * d) <= d.
Proof.
  intros H. unfold half_even. pose proof (Z.div_mod n d ltac:(lia)). pose proof (Z.mod_pos_bound n d H).
  destruct (2 * (n mod d) <? d) eqn:E1; [nia|]. destruct (d <? 2 * (n mod d)) eqn:E2; [nia|].
  destruct (Z.even (n / d)); nia.
Qed.
Lemma half_even_exact n d : 0 < d -> n mod d = 0 -> half_even n d * d = n.
Proof.
  intros H E. unfold half_even. rewrite E. replace (2 * 0 <? d) with true by lia. pose proof (Z.div_mod n d ltac:(lia)). lia.
Qed.
Lemma dec_fixed14_text neg m e : 0 <= m ->
  dec_fixed14 (Dec neg m e) =
  fixed_text neg (if -14 <=? e then m * 10 ^ (e + 14) else half_even m (10 ^ (-14 - e))).
Proof.
  intros H. unfold dec_fixed14, fixed_text, pad14. cbn [d_neg d_coef d_exp]. cbv zeta.
  rewrite text_app, <- text_repeat0, map_length. reflexivity.
Qed.
(** Value printed for a stored number, in units of 10^-14. *)
Definition printed (x m : Z) : Z := if 127 <=? x then m * 10 ^ (x - 127) else half_even m (10 ^ (127 - x)).
Lemma half_even_nonneg n d : 0 < d -> 0 <= n -> 0 <= half_even n d.
Proof.
  intros H N. unfold half_even. assert (0 <= n / d) by (apply Z.div_pos; lia).
  destruct (_ <? _); [auto|]. destruct (_ <? _); [lia|]. destruct (Z.even _); lia.
Qed.
Lemma printed_nonneg x m : 0 <= m -> 0 <= printed x m.
Proof.
  intros H. unfold printed. destruct (127 <=? x) eqn:E; [pose proof (pow10_pos (x - 127) ltac:(lia)); nia|].
  apply half_even_nonneg; auto. apply pow10_pos. lia.
Qed.
Lemma real_string_stored c0 neg x m : is_byte c0 -> is_byte x -> 0 < m < 10 ^ 14 ->
  exists l, lit_wf l /\ lit_neg l = neg /\ real_string (stored c0 neg x m) = Ok (lit_text l) /\
    squash (lit_text l) = lit_text l /\ sci_eq (lit_coef l) (lit_scale l) (printed x m) (-14) /\
    l_sign l = (if neg then s2l "-" else []) /\ l_int l <> [] /\ l_exp l = None.
Proof.
  intros H X M. destruct (strip_fixed neg (printed x m)) as (l & W & N & T & Sq & V); [apply printed_nonneg; lia|].
  exists l. split; [exact W|]. split; [exact N|]. split; [|split; [exact Sq|exact V]]. unfold real_string. rewrite real_decimal_stored by (auto; lia). cbn [rbind d_coef].
  replace (m =? 0) with false by lia. cbn [negb]. rewrite andb_true_r. rewrite dec_fixed14_text by lia. f_equal.
  rewrite <- T. do 3 f_equal. unfold printed.
  replace (-14 <=? x - 141) with (127 <=? x) by lia. replace (x - 141 + 14) with (x - 127) by lia.
  replace (-14 - (x - 141)) with (127 - x) by lia. reflexivity.
Qed.
Lemma real_string_zero c0 neg x : is_byte c0 -> is_byte x -> real_string (stored c0 neg x 0) = Ok (s2l "0").
Proof. intros H X. unfold real_string. rewrite real_decimal_stored by (auto; lia). reflexivity. Qed.
Lemma printed_same x m : is_byte x -> 10 ^ 13 <= m < 10 ^ 14 ->
  (truncated14 (printed x m) (-14) m (x - 141) <-> (x < 127 -> m mod 10 ^ (127 - x) = 0)).
Proof.
  intros X M. unfold is_byte in X. split.
  - intros T Lx. unfold printed in T. replace (127 <=? x) with false in T by lia.
    set (p := 10 ^ (127 - x)) in *. assert (P : 10 <= p) by (unfold p; change 10 with (10 ^ 1) at 1; apply Z.pow_le_mono_r; lia).
    pose proof (half_even_spec m p ltac:(lia)) as HE. pose proof (half_even_nonneg m p ltac:(lia) ltac:(lia)) as HN.
    set (h := half_even m p) in *.
    assert (h < 10 ^ 14) by nia.
    pose proof (truncated14_exact _ _ _ _ h 0 T ltac:(lia) ltac:(lia) ltac:(lia)) as E.
    rewrite (scale_eq _ _ _ _ (x - 141)) in E by lia. rewrite Z.sub_diag in E. replace (-14 - (x - 141)) with (127 - x) in E by lia.
    fold p in E. change (10 ^ 0) with 1 in E. replace m with (h * p) by lia. apply Z.mod_mul. lia.
  - intros D. assert (E : sci_eq m (x - 141) (printed x m) (-14)).
    { unfold printed. destruct (127 <=? x) eqn:Lx.
      - rewrite (scale_eq _ _ _ _ (-14)) by lia. rewrite Z.sub_diag. replace (x - 141 - -14) with (x - 127) by lia. change (10 ^ 0) with 1. lia.
      - rewrite (scale_eq _ _ _ _ (x - 141)) by lia. rewrite Z.sub_diag. replace (-14 - (x - 141)) with (127 - x) by lia.
        rewrite half_even_exact; [change (10 ^ 0) with 1; lia|apply pow10_pos; lia|apply D; lia]. }
    apply (truncated14_cong m (x - 141)); auto. split; [lia|]. unfold sci_le, sci_lt. rewrite Z.min_id, Z.sub_diag. change (10 ^ 0) with 1. lia.
Qed.
Lemma sci_eq_sym a x b y : sci_eq a x b y -> sci_eq b y a x.
Proof. unfold sci_eq. rewrite Z.min_comm. auto. Qed.
Lemma stored_inj c0 neg x m c0' neg' x' m' : 0 <= m < 10 ^ 14 -> 0 <= m' < 10 ^ 14 ->
  stored c0 neg x m = stored c0' neg' x' m' -> x = x' /\ m = m' /\ neg = neg' /\ c0 mod 128 = c0' mod 128.
Proof.
  intros M M' E. assert (E2 : mant m = mant m') by exact (f_equal (fun b => skipn 2 (b_data b)) E).
  assert (E1 : x = x') by exact (f_equal (fun b => nth 1 (b_data b) 0) E).
  assert (E0 : c0 mod 128 + (if neg then 128 else 0) = c0' mod 128 + (if neg' then 128 else 0)) by exact (f_equal (fun b => nth 0 (b_data b) 0) E).
  split; auto.
  assert (m = m'). { unfold mant in E2. rewrite <- (bcd_get_bcd_le 7 m), <- (bcd_get_bcd_le 7 m') by lia. now rewrite E2. }
  split; auto. destruct neg, neg'; split; auto; lia.
Qed.
Lemma sci_eq_zero a x y : sci_eq a x 0 y <-> a = 0.
Proof. unfold sci_eq. pose proof (pow10_pos (x - Z.min x y) ltac:(lia)). split; intros; nia. Qed.
Lemma real_reload c0 neg x m d0 d1 r : is_byte c0 -> is_byte x -> 10 ^ 13 <= m < 10 ^ 14 ->
  is_byte d0 -> length r = 7%nat ->
  exists s, real_string (stored c0 neg x m) = Ok s /\
    (real_load s (Buf true (d0 :: d1 :: r)) = (stored d0 neg x m, oret tt) <-> (x < 127 -> m mod 10 ^ (127 - x) = 0)).
Proof.
  intros H X M D0 L. destruct (real_string_stored c0 neg x m H X ltac:(lia)) as (l & W & N & S & Sq & V & _).
  exists (lit_text l). split; auto. destruct (real_load_spec l (lit_text l) d0 d1 r W Sq L D0) as [R0 R1].
  rewrite <- (printed_same x m X M). split.
  - intros E. destruct (Z.eq_dec (lit_coef l) 0) as [Z|NZ].
    + rewrite (R0 Z) in E. apply (f_equal fst) in E. cbn [fst] in E. apply stored_inj in E as (_ & E & _); lia.
    + destruct (R1 NZ) as (m' & x' & T & Q). rewrite Q in E. destruct (is_byteb x'); [|discriminate E].
      apply (f_equal fst) in E. cbn [fst] in E. assert (T' := T). destruct T' as [TM _]. apply stored_inj in E as (-> & -> & _); [|lia|lia].
      apply (truncated14_cong _ _ _ _ _ _ V T).
  - intros T. apply (truncated14_cong _ _ _ _ _ _ (sci_eq_sym _ _ _ _ V)) in T.
    assert (NZ : lit_coef l <> 0) by (apply truncated14_pos in T; lia).
    destruct (R1 NZ) as (m' & x' & T' & Q). destruct (truncated14_unique _ _ _ _ _ _ T T') as [E1 E2].
    assert (x = x') by lia. subst m' x'. rewrite Q. replace (is_byteb x) with true by (symmetry; now apply is_byteb_spec). now rewrite N.
Qed.
