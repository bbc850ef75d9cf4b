From Verif Require Import Base FioModel ChrModel CmdModel CmdSpec.

(** ** Characters *)
Lemma memc_In set c : memc set c = true <-> In c set.
Proof.
  unfold memc. rewrite existsb_exists. split.
  - intros [x [H1 H2]]. apply Z.eqb_eq in H2. subst. exact H1.
  - intros H. exists c. split; [exact H|apply Z.eqb_refl].
Qed.
Lemma memc_false set c : memc set c = false <-> ~ In c set.
Proof. rewrite <- memc_In. destruct (memc set c); split; congruence. Qed.
Lemma delim_memc c : delim c <-> memc delims c = true.
Proof. rewrite memc_In. unfold delim, delims. cbn [In]. intuition congruence. Qed.
Lemma stop_memc c : memc stops c = true <-> delim c \/ c = 59 \/ c = 35.
Proof. rewrite memc_In. unfold stops, delim, delims. cbn [In app]. intuition congruence. Qed.
Lemma wchar_stop c : wchar c -> memc stops c = false.
Proof.
  intros [_ [H1 [H2 H3]]]. destruct (memc stops c) eqn:E; [|reflexivity].
  apply stop_memc in E. tauto.
Qed.
Lemma wchar_delim c : wchar c -> memc delims c = false.
Proof.
  intros [_ [H1 _]]. destruct (memc delims c) eqn:E; [|reflexivity].
  apply delim_memc in E. tauto.
Qed.

(** what comes behind a word *)
Definition stopped (s : list Z) : Prop := match s with [] => True | c :: _ => memc stops c = true end.

Lemma strcspn_word w u : Forall (fun c => memc stops c = false) w -> stopped u ->
  strcspn (w ++ u) stops = length w.
Proof.
  induction 1 as [|c w Hc Hw IH]; intros Hu; cbn [app strcspn length].
  - destruct u as [|c u]; [reflexivity|]. cbn [stopped] in Hu. cbn [strcspn]. rewrite Hu. reflexivity.
  - rewrite Hc, IH by assumption. reflexivity.
Qed.
Lemma firstn_word w (u : list Z) : firstn (length w) (w ++ u) = w.
Proof. rewrite firstn_app, Nat.sub_diag, firstn_all. cbn. apply app_nil_r. Qed.
Lemma skipn_word w (u : list Z) : skipn (length w) (w ++ u) = u.
Proof. rewrite skipn_app, Nat.sub_diag, skipn_all. reflexivity. Qed.
Lemma skip_delims_app s u : sep s -> skip_delims (s ++ u) = skip_delims u.
Proof.
  induction 1 as [|c s Hc Hs IH]; cbn [app skip_delims]; [reflexivity|].
  apply delim_memc in Hc. rewrite Hc. exact IH.
Qed.
Lemma skip_delims_len s : (length (skip_delims s) <= length s)%nat.
Proof.
  induction s as [|c s IH]; cbn [skip_delims]; [lia|].
  destruct (memc delims c); cbn [length]; lia.
Qed.
Lemma skip_delims_hd s : match skip_delims s with [] => True | c :: _ => memc delims c = false end.
Proof.
  induction s as [|c s IH]; cbn [skip_delims]; [exact I|].
  destruct (memc delims c) eqn:E; [exact IH|exact E].
Qed.
Lemma skip_delims_suffix s : exists p, sep p /\ s = p ++ skip_delims s.
Proof.
  induction s as [|c s IH]; cbn [skip_delims].
  - exists []. split; [constructor|reflexivity].
  - destruct (memc delims c) eqn:E.
    + destruct IH as [p [H1 H2]]. exists (c :: p). split; [constructor; [apply delim_memc; exact E|exact H1]|].
      cbn [app]. rewrite <- H2. reflexivity.
    + exists []. split; [constructor|reflexivity].
Qed.
Lemma strspn_skip s : skipn (strspn s delims) s = skip_delims s.
Proof.
  induction s as [|c s IH]; [reflexivity|]. cbn [strspn skip_delims].
  destruct (memc delims c); [exact IH|reflexivity].
Qed.

(** ** $( ) *)
Lemma expand_walk_calm s : text s \/ (~ In 36 s /\ ~ In 92 s) ->
  forall i lv, lv <= 0 -> exists lv', expand_walk s i (-1) (-1) lv = Ok (-1, -1, lv').
Proof.
  intros [H|[H1 H2]].
  - induction H as [|c t H0 H34 H92 H36 H IH|c t H0 H IH]; intros i lv Hl; cbn [expand_walk].
    + exists lv. reflexivity.
    + replace (c =? 92) with false by lia. replace (c =? 36) with false by lia.
      destruct (c =? 41).
      * replace (lv - 1 =? 0) with false by lia. apply IH. lia.
      * apply IH. exact Hl.
    + cbn [Z.eqb Pos.eqb]. apply IH. exact Hl.
  - induction s as [|c t IH]; intros i lv Hl; cbn [expand_walk].
    + exists lv. reflexivity.
    + cbn [In] in H1, H2. replace (c =? 92) with false by lia. replace (c =? 36) with false by lia.
      destruct (c =? 41).
      * replace (lv - 1 =? 0) with false by lia. apply IH; [tauto|tauto|lia].
      * apply IH; [tauto|tauto|exact Hl].
Qed.
Lemma expand_calm s : text s \/ (~ In 36 s /\ ~ In 92 s) -> expand s = Ok [].
Proof.
  intros H. destruct s as [|c t]; [reflexivity|].
  destruct (expand_walk_calm _ H 0 0 ltac:(lia)) as [lv' E].
  unfold expand. rewrite E. reflexivity.
Qed.

(** ** The loop does not depend on its fuel *)
Lemma scan_str_len s : (length (snd (scan_str s)) <= length s)%nat.
Proof.
  enough (H : forall n s, (length s <= n)%nat -> (length (snd (scan_str s)) <= length s)%nat)
    by (apply (H (length s)); lia).
  clear s. induction n as [|n IH]; intros [|c t] H; cbn [length] in H; try lia.
  - cbn. lia.
  - cbn. lia.
  - cbn [scan_str]. destruct (c =? 34); [cbn [snd]; lia|].
    destruct (c =? 92).
    + destruct t as [|d u]; [cbn; lia|]. cbn [length] in H. cbn [snd length].
      specialize (IH u ltac:(lia)). lia.
    + cbn [snd length]. specialize (IH t ltac:(lia)). lia.
Qed.
Lemma quoted_rest_len s r : quoted_rest s = Ok r -> (length r <= length s)%nat.
Proof.
  enough (H : forall n s r, (length s <= n)%nat -> quoted_rest s = Ok r -> (length r <= length s)%nat)
    by (apply (H (length s)); lia).
  clear s r. induction n as [|n IH]; intros [|c t] r H E; cbn [length] in H; try lia; cbn [quoted_rest] in E.
  - discriminate.
  - discriminate.
  - destruct (c =? 34); [injection E as <-; cbn [length]; lia|].
    destruct (c =? 92).
    + destruct t as [|d [|e u]]; try discriminate. cbn [length] in *.
      specialize (IH u r ltac:(lia) E). lia.
    + specialize (IH t r ltac:(lia) E). cbn [length]. lia.
Qed.
Lemma token_rest_len s r : token_rest s = Ok r -> (length r <= length s)%nat.
Proof.
  destruct s as [|c t]; cbn [token_rest]; intros E; [injection E as <-; cbn; lia|].
  destruct (c =? 34).
  - apply quoted_rest_len in E. cbn [length]. lia.
  - remember (skipn (strcspn (c :: t) tok_stops) (c :: t)) as x. injection E as <-. subst x.
    rewrite skipn_length. lia.
Qed.
Lemma strcspn_pos c t : memc stops c = false -> (1 <= strcspn (c :: t) stops)%nat.
Proof. intros H. cbn [strcspn]. rewrite H. lia. Qed.

(** the head of what the loop looks at is no separator *)
Definition clean (s : list Z) : Prop := match s with [] => True | c :: _ => memc delims c = false end.
Lemma clean_skip s : clean (skip_delims s).
Proof. apply skip_delims_hd. Qed.
Lemma clean_stop c : memc delims c = false -> c <> 35 -> c <> 59 -> memc stops c = false.
Proof.
  intros H H1 H2. destruct (memc stops c) eqn:E; [|reflexivity].
  apply stop_memc in E. destruct E as [E|E]; [apply delim_memc in E; congruence|tauto].
Qed.
Lemma tl_len {A} (l : list A) : (length (tl l) <= length l)%nat.
Proof. destruct l; cbn; lia. Qed.

Lemma loop_fuel : forall k k' s a, clean s -> (length s < k)%nat -> (length s < k')%nat ->
  split_loop k s a = split_loop k' s a.
Proof.
  induction k as [|k IH]; intros k' s a Hc H H'; [lia|].
  destruct k' as [|k']; [lia|]. cbn [split_loop].
  destruct s as [|c t]; [reflexivity|]. cbn [length] in H, H'. cbn [clean] in Hc.
  destruct (c =? 35) eqn:E35; [reflexivity|]. destruct (c =? 59) eqn:E59; [reflexivity|].
  destruct (c =? 34).
  - destruct (expand (fst (scan_str t))); cbn [rbind]; try reflexivity.
    pose proof (scan_str_len t). pose proof (skip_delims_len (tl (snd (scan_str t)))).
    pose proof (tl_len (snd (scan_str t))).
    apply IH; [apply clean_skip|lia|lia].
  - destruct (c =? 62).
    + set (ms := match t with
                 | [] => (119, t)
                 | d :: u => if d =? 62 then (97, u) else (119, t)
                 end).
      assert (L : (length (snd ms) <= length t)%nat).
      { unfold ms. destruct t as [|d u]; [cbn; lia|]. destruct (d =? 62); cbn [snd length]; lia. }
      destruct ms as [m s1]. cbn [snd] in L.
      destruct (token_rest s1) as [r| |] eqn:Er; cbn [rbind]; try reflexivity.
      destruct (get_token s1); cbn [rbind]; try reflexivity.
      apply token_rest_len in Er. pose proof (skip_delims_len r).
      apply IH; [apply clean_skip|lia|lia].
    + destruct (expand (firstn (strcspn (c :: t) stops) (c :: t))); cbn [rbind]; try reflexivity.
      pose proof (skip_delims_len (skipn (strcspn (c :: t) stops) (c :: t))) as L.
      rewrite skipn_length in L. pose proof (strcspn_pos c t (clean_stop c Hc ltac:(lia) ltac:(lia))).
      cbn [length] in L.
      apply IH; [apply clean_skip|lia|lia].
Qed.
Definition L (s : list Z) (a : acc) : res (acc * fin) := split_loop (S (length s)) s a.
Lemma L_ge k s a : clean s -> (length s < k)%nat -> split_loop k s a = L s a.
Proof. intros. apply loop_fuel; [assumption|assumption|lia]. Qed.

Lemma L_nil a : L [] a = Ok (a, FEnd).
Proof. reflexivity. Qed.
Lemma L_comment t a : L (35 :: t) a = Ok (a, FComment (35 :: t)).
Proof. reflexivity. Qed.
Lemma L_more t a : L (59 :: t) a = Ok (a, FMore t).
Proof. reflexivity. Qed.
Lemma L_word w u a : w <> [] -> Forall (fun c => memc stops c = false) w -> stopped u ->
  hd 0 w <> 34 -> hd 0 w <> 62 ->
  L (w ++ u) a = (e <- expand w ;;
                  L (skip_delims u) (add_word a w (fst (word_param w)) (e ++ snd (word_param w)))).
Proof.
  intros Hn Hw Hu H1 H2. destruct w as [|c t]; [congruence|]. cbn [hd] in H1, H2.
  assert (Hc : memc stops c = false) by (inversion Hw; assumption).
  assert (c <> 35 /\ c <> 59).
  { split; intros ->; cbn in Hc; congruence. }
  unfold L at 1. cbn [app]. cbn [split_loop].
  replace (c =? 35) with false by lia. replace (c =? 59) with false by lia.
  replace (c =? 34) with false by lia. replace (c =? 62) with false by lia.
  change (c :: t ++ u) with ((c :: t) ++ u). rewrite strcspn_word by assumption.
  rewrite firstn_word, skipn_word.
  destruct (expand (c :: t)); cbn [rbind]; try reflexivity.
  apply L_ge; [apply clean_skip|]. pose proof (skip_delims_len u). cbn [app length].
  rewrite app_length. lia.
Qed.
Lemma scan_text t u : text t -> scan_str (t ++ 34 :: u) = (t, 34 :: u).
Proof.
  induction 1 as [|c t H0 H34 H92 H36 H IH|c t H0 H IH]; cbn [app scan_str].
  - reflexivity.
  - replace (c =? 34) with false by lia. replace (c =? 92) with false by lia. rewrite IH. reflexivity.
  - cbn [Z.eqb Pos.eqb]. rewrite IH. reflexivity.
Qed.
Lemma L_str t u a : text t ->
  L (34 :: t ++ 34 :: u) a = L (skip_delims u) (add_word a t [PStr t] []).
Proof.
  intros H. unfold L at 1. cbn [split_loop Z.eqb Pos.eqb].
  rewrite scan_text by exact H. cbn [fst snd tl app].
  rewrite expand_calm by (left; exact H). cbn [rbind].
  apply L_ge; [apply clean_skip|]. pose proof (skip_delims_len u). cbn [length].
  rewrite app_length. cbn [length]. lia.
Qed.

(** ** A written command *)
Definition item_acc (a : acc) (i : item) : acc :=
  match i with
  | IWord w => add_word a w (fst (word_param w)) (snd (word_param w))
  | IStr t => add_word a t [PStr t] []
  end.
Definition items_acc (a : acc) (l : list (item * list Z)) : acc :=
  fold_left (fun a p => item_acc a (fst p)) l a.
Definition fin_of (e : ending) : fin :=
  match e with End => FEnd | Comment t => FComment (35 :: t) | More t => FMore t end.

Lemma L_tail e a : L (tail e) a = Ok (a, fin_of e).
Proof. destruct e; reflexivity. Qed.
Lemma skip_tail e : skip_delims (tail e) = tail e.
Proof. destruct e; reflexivity. Qed.
Lemma stopped_tail e : stopped (tail e).
Proof. destruct e; cbn; auto. Qed.
Lemma stopped_sep s u : sep s -> s <> [] \/ stopped u -> stopped (s ++ u).
Proof.
  intros H D. destruct H as [|c s Hc Hs]; cbn [app].
  - destruct D; [congruence|assumption].
  - cbn [stopped]. apply stop_memc. left. exact Hc.
Qed.
Lemma word_parts w : word w ->
  w <> [] /\ Forall (fun c => memc stops c = false) w /\ hd 0 w <> 34 /\ hd 0 w <> 62 /\ expand w = Ok [].
Proof.
  intros [H1 [H2 [H3 [H4 [H5 H6]]]]]. split; [exact H1|]. split.
  - eapply Forall_impl; [|exact H2]. intros. apply wchar_stop. assumption.
  - repeat split; try assumption. apply expand_calm. right. tauto.
Qed.
Lemma body_clean l e : ok_body l -> skip_delims (body l ++ tail e) = body l ++ tail e.
Proof.
  destruct l as [|[i s] l]; intros H; [apply skip_tail|].
  destruct H as [Hi _]. destruct i as [w|t]; cbn [body source].
  - destruct Hi as [Hn [Hw _]]. destruct w as [|c w]; [congruence|]. cbn [app skip_delims].
    rewrite wchar_delim by (inversion Hw; assumption). reflexivity.
  - reflexivity.
Qed.
Lemma L_body l e : ok_body l -> forall a,
  L (body l ++ tail e) a = Ok (items_acc a l, fin_of e).
Proof.
  induction l as [|[i s] l IH]; intros H a.
  - apply L_tail.
  - destruct H as [Hi [Hs [Hl Hw]]]. destruct i as [w|t]; cbn [body source items_acc fold_left fst item_acc].
    + destruct (word_parts w Hi) as [W1 [W2 [W3 [W4 W5]]]].
      replace ((w ++ s ++ body l) ++ tail e) with (w ++ (s ++ body l ++ tail e)) by (rewrite <- !app_assoc; reflexivity).
      rewrite L_word; try assumption.
      2:{ apply stopped_sep; [exact Hs|]. destruct l as [|p l]; [right; apply stopped_tail|left; apply Hw; congruence]. }
      rewrite W5. cbn [rbind app]. rewrite skip_delims_app by exact Hs. rewrite body_clean by exact Hl.
      rewrite IH by exact Hl. reflexivity.
    + replace (((34 :: t ++ [34]) ++ s ++ body l) ++ tail e) with (34 :: t ++ 34 :: (s ++ body l ++ tail e)).
      2:{ cbn [app]. rewrite <- !app_assoc. reflexivity. }
      rewrite L_str by exact Hi. rewrite skip_delims_app by exact Hs. rewrite body_clean by exact Hl.
      rewrite IH by exact Hl. reflexivity.
Qed.
Lemma cut_cmd_app a b : cut_cmd (a ++ b) b = a.
Proof.
  unfold cut_cmd. rewrite app_length. replace (length a + length b - length b)%nat with (length a) by lia.
  apply firstn_word.
Qed.

Definition line_of (c : command) (r : option (list Z)) : cline :=
  let a := items_acc acc0 (c_items c) in
  mkL (written c) (Some (c_word c)) r (a_toks a) (a_prm a) (a_redir a) (a_err a).
Lemma cmdname_parts w : cmdname w ->
  exists c t, w = c :: t /\ memc delims c = false /\ c <> 10 /\ c <> 35 /\ c <> 59 /\
    Forall (fun c => memc stops c = false) w.
Proof.
  intros [H1 [H2 H3]]. destruct w as [|c t]; [congruence|]. exists c, t.
  assert (Hc : wchar c) by (inversion H2; assumption).
  split; [reflexivity|]. split; [apply wchar_delim; exact Hc|].
  destruct Hc as [_ [_ [? ?]]]. repeat split; try assumption.
  eapply Forall_impl; [|exact H2]. intros. apply wchar_stop. assumption.
Qed.
Lemma split_written c e r0 : ok_command c ->
  split (written c ++ tail e) r0 =
    Ok (line_of c (match e with More t => Some t | _ => r0 end)).
Proof.
  intros [Hl [Hn [Hs [Hb Hsb]]]].
  destruct (cmdname_parts _ Hn) as [x [t [Ew [Hd [H10 [H35 [H59 Hst]]]]]]].
  unfold split. destruct (written c ++ tail e) as [|y ys] eqn:E.
  { exfalso. apply (f_equal (@length Z)) in E. unfold written in E. rewrite Ew in E.
    rewrite !app_length in E. cbn [length] in E. lia. }
  rewrite <- E. clear E y ys. rewrite strspn_skip.
  set (rem := c_sep c ++ body (c_items c) ++ tail e).
  assert (E : written c ++ tail e = c_lead c ++ c_word c ++ rem).
  { unfold written, rem. rewrite <- !app_assoc. reflexivity. }
  assert (Es : skip_delims (written c ++ tail e) = c_word c ++ rem).
  { rewrite E, skip_delims_app by exact Hl. rewrite Ew. cbn [app skip_delims]. rewrite Hd. reflexivity. }
  rewrite Es. clear Es. rewrite Ew. cbn [app].
  replace (x =? 10) with false by lia. replace (x =? 35) with false by lia. replace (x =? 59) with false by lia.
  change (x :: t ++ rem) with ((x :: t) ++ rem). rewrite <- Ew.
  assert (Hrem : stopped rem).
  { unfold rem. apply stopped_sep; [exact Hs|]. destruct (c_items c) as [|p l] eqn:Ei.
    - right. apply stopped_tail.
    - left. apply Hsb. congruence. }
  rewrite strcspn_word by assumption. rewrite firstn_word, skipn_word.
  assert (Er : skip_delims rem = body (c_items c) ++ tail e).
  { unfold rem. rewrite skip_delims_app by exact Hs. apply body_clean. exact Hb. }
  rewrite Er. rewrite L_ge.
  2:{ rewrite <- Er. apply clean_skip. }
  2:{ rewrite <- Er. pose proof (skip_delims_len rem). rewrite app_length. lia. }
  rewrite L_body by exact Hb. cbn [rbind]. unfold line_of. f_equal.
  destruct e as [|u|u]; cbn [fin_of tail]; rewrite ?cut_cmd_app, ?app_nil_r; reflexivity.
Qed.
