(** Proofs about the string class: memory and operations. *)
From Verif Require Import Base ChrModel ChrSpec ChrObs.

Lemma str_ok s t : text s -> str (s ++ 0 :: t) = Ok s.
Proof.
  induction s as [|c s IH]; intros H; [reflexivity|]. inversion H; subst. cbn [app str]. destruct (Z.eqb_spec c 0); [contradiction|].
  rewrite IH by assumption. reflexivity.
Qed.
Lemma upd_app (a b : list Z) x v : upd (a ++ x :: b) (length a) v = a ++ v :: b.
Proof. induction a as [|c a IH]; [reflexivity|]. cbn [app length upd]. rewrite IH. reflexivity. Qed.
Lemma nth_app (a b : list Z) x d : nth (length a) (a ++ x :: b) d = x.
Proof. induction a as [|c a IH]; [reflexivity|]. cbn. exact IH. Qed.
Lemma mwr_ok a x b v i : i = Z.of_nat (length a) -> mwr (a ++ x :: b) i v = Ok (a ++ v :: b).
Proof. intros ->. unfold mwr. rewrite app_length. cbn [length]. replace (_ && _) with true by lia. rewrite Nat2Z.id, upd_app. reflexivity. Qed.
Lemma mrd_ok a x b i : i = Z.of_nat (length a) -> mrd (a ++ x :: b) i = Ok x.
Proof. intros ->. unfold mrd. rewrite app_length. cbn [length]. replace (_ && _) with true by lia. rewrite Nat2Z.id, nth_app. reflexivity. Qed.
Lemma mcopy_ok s : forall a old b i, i = Z.of_nat (length a) -> length old = length s -> mcopy (a ++ old ++ b) i s = Ok (a ++ s ++ b).
Proof.
  induction s as [|c s IH]; intros a old b i Hi L; destruct old as [|o old]; try discriminate; [reflexivity|]. cbn [mcopy app].
  rewrite (mwr_ok a o) by exact Hi. cbn [rbind]. replace (a ++ c :: old ++ b) with ((a ++ [c]) ++ old ++ b) by (rewrite <- app_assoc; reflexivity).
  rewrite IH; [|rewrite app_length; cbn [length]; lia|cbn in L; lia]. rewrite <- app_assoc. reflexivity.
Qed.
Lemma malloc_ok g n : 0 <= n -> exists b, malloc g n = Ok b /\ Z.of_nat (length b) = n.
Proof. intros H. unfold malloc. replace (n <? 0) with false by lia. eexists. split; [reflexivity|]. rewrite map_length, seq_length. lia. Qed.
Lemma split_len (b : block) n : (n <= length b)%nat -> exists x y, b = x ++ y /\ length x = n.
Proof. intros H. exists (firstn n b), (skipn n b). split; [symmetry; apply firstn_skipn|]. rewrite firstn_length. lia. Qed.
Lemma strcpy_ok b s : Z.of_nat (length s) + 1 <= Z.of_nat (length b) -> exists t, strcpy b s = Ok (s ++ 0 :: t) /\ (length s + 1 + length t = length b)%nat.
Proof.
  intros H. destruct (split_len b (length s + 1)) as (x & y & -> & L); [lia|]. exists y. unfold strcpy.
  pose proof (mcopy_ok (s ++ [0]) [] x y 0 eq_refl) as M. cbn [app] in M. rewrite M by (rewrite app_length; cbn [length]; lia).
  rewrite <- app_assoc. split; [reflexivity|]. rewrite app_length. lia.
Qed.
Lemma strcat_ok v t s : text v -> (length s <= length t)%nat -> exists t', strcat (v ++ 0 :: t) s = Ok (v ++ s ++ 0 :: t') /\ (length s + length t' = length t)%nat.
Proof.
  intros V H. unfold strcat. rewrite str_ok by exact V. cbn [rbind]. destruct (split_len (0 :: t) (length s + 1)) as (x & y & E & L); [cbn [length]; lia|].
  rewrite E. exists y. rewrite (mcopy_ok (s ++ [0]) v x y _ eq_refl) by (rewrite app_length; cbn [length]; lia).
  rewrite <- app_assoc. cbn [app]. split; [reflexivity|].
  assert (length (0 :: t) = length (x ++ y)) by (rewrite E; reflexivity). rewrite app_length in H0. cbn [length] in H0. lia.
Qed.
Lemma text_app a b : text a -> text b -> text (a ++ b).
Proof. intros. apply Forall_app. auto. Qed.

(** The object [c] holds what the specification says. *)
Definition rep (c : chars) (o : sobj) : Prop :=
  cown c = sown o /\
  match sval o with
  | None => cblk c = None /\ clen c = 0 /\ sown o = false
  | Some s => text s /\ clen c = Z.of_nat (length s) /\ exists t, cblk c = Some (s ++ 0 :: t)
  end.
Lemma rep_val c o : rep c o -> cval c = Ok (sval o).
Proof.
  intros [_ R]. unfold cval. destruct (sval o) as [s|].
  - destruct R as (T & _ & t & ->). rewrite str_ok by exact T. reflexivity.
  - destruct R as [-> _]. reflexivity.
Qed.
Lemma rep_len c o : rep c o -> clen c = Z.of_nat (length (chars_of o)).
Proof. intros [_ R]. unfold chars_of. destruct (sval o) as [s|]; destruct R as (A & B & _); [exact B|]. rewrite B. reflexivity. Qed.
Lemma rep_text c o : rep c o -> text (chars_of o).
Proof. intros [_ R]. unfold chars_of. destruct (sval o) as [s|]; [apply R|constructor]. Qed.
Lemma rep_empty c o : rep c o -> empty c = match chars_of o with [] => true | _ => false end.
Proof. intros R. unfold empty. rewrite (rep_len _ _ R). destruct (chars_of o); [reflexivity|]. cbn [length]. lia. Qed.

Lemma allocate_ok g s : text s -> exists c, allocate g (Some s) = Ok c /\ rep c (mine s) /\ cpos c = 0.
Proof.
  intros T. unfold allocate. destruct (malloc_ok g (Z.of_nat (length s) + 1)) as (b & E & L); [lia|]. rewrite E. cbn [rbind].
  destruct (strcpy_ok b s) as (t & E2 & _); [lia|]. rewrite E2. cbn [rbind]. eexists. split; [reflexivity|]. split; [|reflexivity].
  split; [reflexivity|]. cbn. eauto.
Qed.
Lemma copy_old g c o n : rep c o -> 0 <= n ->
  exists t, (temp <- malloc g (clen c + n + 1) ;; match cblk c with Some b => v <- str b ;; strcpy temp v | None => mwr temp 0 0 end) = Ok (chars_of o ++ 0 :: t) /\ Z.of_nat (length t) = n.
Proof.
  intros R N. pose proof (rep_len _ _ R) as L. destruct (malloc_ok g (clen c + n + 1)) as (b & E & Lb); [lia|]. rewrite E. cbn [rbind].
  destruct R as [_ R]. unfold chars_of in *. destruct (sval o) as [s|].
  - destruct R as (T & _ & u & ->). rewrite str_ok by exact T. cbn [rbind]. destruct (strcpy_ok b s) as (t & E2 & L2); [lia|]. exists t. split; [exact E2|lia].
  - destruct R as (-> & L0 & _). destruct b as [|x b]; [cbn in *; lia|]. exists b. split; [apply (mwr_ok [] x b 0 0 eq_refl)|]. cbn [length] in *. lia.
Qed.
Lemma append_ok g c o s : rep c o -> text s -> exists c', append g c (Ext s) = Ok c' /\ rep c' (mine (chars_of o ++ s)) /\ cpos c' = cpos c.
Proof.
  intros R T. unfold append. destruct (copy_old g c o (Z.of_nat (length s)) R ltac:(lia)) as (t & E & L).
  destruct (malloc g _) as [b| |] eqn:M; try discriminate. cbn [rbind] in *. rewrite E. cbn [rbind].
  destruct (strcat_ok (chars_of o) t s (rep_text _ _ R) ltac:(lia)) as (t' & E2 & _). rewrite E2. cbn [rbind].
  eexists. split; [reflexivity|]. split; [|reflexivity]. split; [reflexivity|]. cbn [sval mine cblk clen]. split; [apply text_app; [apply (rep_text _ _ R)|exact T]|].
  split; [rewrite app_length, (rep_len _ _ R); lia|]. rewrite app_assoc. eauto.
Qed.
Lemma append_char_ok g c o x : rep c o -> x <> 0 -> exists c', append_char g c x = Ok c' /\ rep c' (mine (chars_of o ++ [x])) /\ cpos c' = cpos c.
Proof.
  intros R T. unfold append_char. destruct (Z.eqb_spec x 0); [contradiction|]. destruct (copy_old g c o 1 R ltac:(lia)) as (t & E & L).
  destruct (malloc g _) as [b| |] eqn:M; try discriminate. cbn [rbind] in *. rewrite E. cbn [rbind].
  destruct (strcat_ok (chars_of o) t [x] (rep_text _ _ R) ltac:(cbn [length]; lia)) as (t' & E2 & _). rewrite E2. cbn [rbind].
  eexists. split; [reflexivity|]. split; [|reflexivity]. split; [reflexivity|]. cbn [sval mine cblk clen].
  split; [apply text_app; [apply (rep_text _ _ R)|repeat constructor; exact T]|].
  split; [rewrite app_length, (rep_len _ _ R); cbn [length]; lia|]. rewrite app_assoc. eauto.
Qed.
Lemma appendn_loop_ok src : forall n v x t, (Nat.min n (length src) <= length t)%nat ->
  exists t', appendn_loop (v ++ x :: t) (Z.of_nat (length v)) src n = Ok (v ++ firstn n src ++ 0 :: t', Z.of_nat (length v + length (firstn n src))).
Proof.
  induction src as [|c src IH]; intros n v x t L.
  - destruct n; cbn [appendn_loop firstn app]; (rewrite (mwr_ok v x t 0 _ eq_refl); cbn [rbind]; exists t; cbn [length]; rewrite Nat.add_0_r; reflexivity).
  - destruct n as [|n]; cbn [appendn_loop firstn app].
    + rewrite (mwr_ok v x t 0 _ eq_refl). cbn [rbind]. exists t. cbn [length]. rewrite Nat.add_0_r. reflexivity.
    + destruct t as [|y t]; [cbn in L; lia|]. rewrite (mwr_ok v x (y :: t) c _ eq_refl). cbn [rbind].
      replace (v ++ c :: y :: t) with ((v ++ [c]) ++ y :: t) by (rewrite <- app_assoc; reflexivity).
      replace (Z.of_nat (length v) + 1) with (Z.of_nat (length (v ++ [c]))) by (rewrite app_length; cbn [length]; lia).
      destruct (IH n (v ++ [c]) y t) as (t' & E); [cbn [length] in L; lia|]. rewrite E. exists t'. rewrite <- app_assoc. cbn [app].
      f_equal. f_equal. rewrite app_length. cbn [length]. lia.
Qed.
Lemma appendn_ok g c o s n : rep c o -> text s -> 0 <= n -> exists c', appendn g c s n = Ok c' /\ rep c' (mine (chars_of o ++ firstn (Z.to_nat n) s)) /\ cpos c' = cpos c.
Proof.
  intros R T N. unfold appendn. destruct (copy_old g c o n R N) as (t & E & L).
  destruct (malloc g _) as [b| |] eqn:M; try discriminate. cbn [rbind] in *. rewrite E. cbn [rbind].
  rewrite (rep_len _ _ R). destruct (appendn_loop_ok s (Z.to_nat n) (chars_of o) 0 t ltac:(lia)) as (t' & E2). rewrite E2. cbn [rbind fst snd].
  assert (Tn : text (firstn (Z.to_nat n) s)) by (unfold text in *; rewrite <- (firstn_skipn (Z.to_nat n) s) in T; apply Forall_app in T; apply T).
  eexists. split; [reflexivity|]. split; [|reflexivity]. split; [reflexivity|]. cbn [sval mine cblk clen].
  split; [apply text_app; [apply (rep_text _ _ R)|exact Tn]|]. split; [rewrite app_length; reflexivity|]. rewrite app_assoc. eauto.
Qed.
Lemma map_loop_ok f s : forall a t, map_loop f (a ++ s ++ t) (Z.of_nat (length a)) (length s) = Ok (a ++ map f s ++ t).
Proof.
  induction s as [|c s IH]; intros a t; [reflexivity|]. cbn [map_loop length app map].
  rewrite (mrd_ok a c _ _ eq_refl). cbn [rbind]. rewrite (mwr_ok a c _ _ _ eq_refl). cbn [rbind].
  replace (Z.of_nat (length a) + 1) with (Z.of_nat (length (a ++ [f c]))) by (rewrite app_length; cbn [length]; lia).
  replace (a ++ f c :: s ++ t) with ((a ++ [f c]) ++ s ++ t) by (rewrite <- app_assoc; reflexivity). rewrite IH, <- app_assoc. reflexivity.
Qed.
Lemma in_place_ok g f c o : rep c o -> (forall x, x <> 0 -> f x <> 0) -> exists c', in_place g f c = Ok c' /\ rep c' (change o (map f)).
Proof.
  intros R F. unfold in_place, change. pose proof (rep_val _ _ R) as V.
  assert (C1 : exists c1, (if cown c then Ok c else v <- cval c ;; allocate g v) = Ok c1 /\ rep c1 (match sval o with Some s => mine s | None => o end)).
  { rewrite V. pose proof R as [O R']. rewrite O. destruct (sval o) as [s|] eqn:S.
    - destruct (sown o) eqn:Ow.
      + exists c. split; [reflexivity|]. split; [cbn [sown mine]; rewrite O; reflexivity|exact R'].
      + cbn [rbind]. destruct (allocate_ok g s) as (c1 & E & R1 & _); [apply R'|]. exists c1. auto.
    - destruct R' as (B & L & Ow). rewrite Ow. cbn [rbind allocate]. eexists. split; [reflexivity|]. split; [cbn; congruence|]. rewrite S. cbn. auto. }
  destruct C1 as (c1 & E & R1). rewrite E. cbn [rbind]. destruct R1 as [O1 R1]. destruct (sval o) as [s|] eqn:S; cbn [sval mine] in R1.
  - destruct R1 as (T & L & t & B). rewrite B, L, Nat2Z.id. pose proof (map_loop_ok f s [] (0 :: t)) as M. cbn [app length Z.of_nat] in M. rewrite M. cbn [rbind].
    eexists. split; [reflexivity|]. split; [exact O1|]. cbn [sval mine cblk clen]. split; [|split; [rewrite map_length; reflexivity|eauto]].
    apply Forall_map. eapply Forall_impl; [|exact T]. exact F.
  - rewrite S in R1. destruct R1 as (B & L & Ow). rewrite B. exists c1. split; [reflexivity|]. split; [exact O1|]. rewrite S. auto.
Qed.
Lemma skip_drop f s : skip_while f s = drop f s.
Proof. induction s as [|c s IH]; [reflexivity|]. cbn [skip_while drop]. rewrite IH. reflexivity. Qed.
Lemma text_drop f s : text s -> text (drop f s).
Proof. induction 1 as [|c s H T IH]; [constructor|]. cbn [drop]. destruct (f c); [exact IH|constructor; assumption]. Qed.
Lemma text_firstn n s : text s -> text (firstn n s).
Proof. intros T. unfold text in *. rewrite <- (firstn_skipn n s) in T. apply Forall_app in T. apply T. Qed.
Lemma text_skipn n s : text s -> text (skipn n s).
Proof. intros T. unfold text in *. rewrite <- (firstn_skipn n s) in T. apply Forall_app in T. apply T. Qed.
Lemma ltrim_ok g c o : rep c o -> exists c', ltrim g c = Ok c' /\ rep c' (sop o OLtrim).
Proof.
  intros R. unfold ltrim. cbn [sop]. rewrite (rep_empty _ _ R), (rep_val _ _ R). destruct (chars_of o) as [|x s] eqn:E; [exists c; auto|].
  cbn [rbind]. unfold chars_of in E. destruct (sval o) as [v|] eqn:S; [|discriminate]. subst v. rewrite skip_drop.
  assert (T : text (x :: s)) by (pose proof (rep_text _ _ R) as T; unfold chars_of in T; rewrite S in T; exact T).
  destruct (allocate_ok g (drop isspace (x :: s)) (text_drop _ _ T)) as (c' & E & R' & _). exists c'. split; [exact E|exact R'].
Qed.
Lemma strspn_drop s set : skipn (strspn s set) s = drop (one_of set) s.
Proof. induction s as [|c s IH]; [reflexivity|]. cbn [strspn drop]. unfold one_of, memc in *. destruct (existsb (Z.eqb c) set); [exact IH|reflexivity]. Qed.
Lemma lrip_ok g c o set : rep c o -> exists c', lrip g c set = Ok c' /\ rep c' (sop o (OLrip set)).
Proof.
  intros R. unfold lrip. cbn [sop]. rewrite (rep_empty _ _ R), (rep_val _ _ R). destruct (chars_of o) as [|x s] eqn:E; [exists c; auto|].
  assert (EN : one_of [] x = false) by reflexivity.
  destruct set as [|d set]; [rewrite EN; exists c; auto|]. clear EN. set (st := d :: set).
  cbn [rbind]. unfold chars_of in E. destruct (sval o) as [v|] eqn:S; [|discriminate]. subst v.
  assert (T : text (x :: s)) by (pose proof (rep_text _ _ R) as T; unfold chars_of in T; rewrite S in T; exact T).
  rewrite strspn_drop. cbn [strspn]. change (memc st x) with (one_of st x). destruct (one_of st x) eqn:O.
  - cbn [Nat.ltb Nat.leb].
    destruct (allocate_ok g (drop (one_of st) (x :: s)) (text_drop _ _ T)) as (c' & E & R' & _). cbn [drop] in *. rewrite O in *. exists c'. split; [exact E|exact R'].
  - exists c. auto.
Qed.
Lemma keep_loop_ok s t n0 : forall n a rest done u, rest = skipn (length a) (a ++ rest) -> s = a ++ rest -> text s -> (length u = n + 1 + n0)%nat ->
  exists u', keep_loop (s ++ 0 :: t) (Z.of_nat (length s)) (Z.of_nat (length a)) (done ++ u) (Z.of_nat (length done)) n =
    Ok (done ++ firstn n rest ++ u', Z.of_nat (length done + length (firstn n rest))) /\ (1 <= length u')%nat.
Proof.
  induction n as [|n IH]; intros a rest done u _ -> T L.
  - exists u. cbn [keep_loop firstn app length]. rewrite Nat.add_0_r. destruct (Z.ltb_spec (Z.of_nat (length a)) (Z.of_nat (length (a ++ rest)))) as [H|H].
    + destruct rest as [|x rest]; [rewrite app_nil_r in H; lia|]. rewrite <- app_assoc. cbn [app]. rewrite (mrd_ok a x _ _ eq_refl). cbn [rbind]. split; [reflexivity|lia].
    + split; [reflexivity|lia].
  - cbn [keep_loop]. destruct rest as [|x rest].
    + rewrite app_nil_r. replace (_ <? _) with false by lia. exists u. cbn [firstn app length]. rewrite Nat.add_0_r. split; [reflexivity|lia].
    + rewrite app_length. cbn [length]. replace (_ <? _) with true by lia.
      assert (Tx : x <> 0) by (apply Forall_app in T; destruct T as [_ T]; inversion T; assumption).
      rewrite <- app_assoc. cbn [app]. rewrite (mrd_ok a x _ _ eq_refl). cbn [rbind]. destruct (Z.eqb_spec x 0); [contradiction|].
      destruct u as [|y u]; [cbn in L; lia|]. rewrite (mwr_ok done y u x _ eq_refl). cbn [rbind firstn app].
      replace (done ++ x :: u) with ((done ++ [x]) ++ u) by (rewrite <- app_assoc; reflexivity).
      destruct (IH (a ++ [x]) rest (done ++ [x]) u) as (u' & E & Lu).
      * rewrite skipn_app, skipn_all, Nat.sub_diag. reflexivity.
      * rewrite <- app_assoc. reflexivity.
      * exact T.
      * cbn in L. lia.
      * exists u'. rewrite <- !app_assoc in E. cbn [app] in E. rewrite !app_length in E. cbn [length] in E.
        replace (Z.of_nat (length a) + 1) with (Z.of_nat (length a + 1)) by lia. replace (Z.of_nat (length done) + 1) with (Z.of_nat (length done + 1)) by lia.
        rewrite <- app_assoc. cbn [app]. rewrite E. split; [|exact Lu]. f_equal. f_equal. cbn [length]. lia.
Qed.
Lemma keep_ok g c o start n : rep c o -> 0 <= start -> 0 <= n -> exists c', ChrModel.keep g c start n = Ok c' /\ rep c' (sop o (OKeep start n)).
Proof.
  intros R S0 N. unfold ChrModel.keep. cbn [sop]. unfold change. pose proof R as [O R']. destruct (sval o) as [s|] eqn:S.
  - destruct R' as (T & L & t & B). rewrite B. destruct (malloc_ok g (n + 1)) as (b & E & Lb); [lia|]. rewrite E. cbn [rbind]. rewrite L.
    assert (K : exists u', keep_loop (s ++ 0 :: t) (Z.of_nat (length s)) start b 0 (Z.to_nat n) =
       Ok (firstn (Z.to_nat n) (skipn (Z.to_nat start) s) ++ u', Z.of_nat (length (firstn (Z.to_nat n) (skipn (Z.to_nat start) s)))) /\ (1 <= length u')%nat).
    { destruct (Z.le_gt_cases (Z.of_nat (length s)) start) as [H|H].
      - assert (E0 : skipn (Z.to_nat start) s = []) by (apply skipn_all2; lia). rewrite E0, firstn_nil. cbn [app length].
        exists b. split; [|lia]. destruct (Z.to_nat n); cbn [keep_loop]; replace (_ <? _) with false by lia; reflexivity.
      - destruct (keep_loop_ok s t 0 (Z.to_nat n) (firstn (Z.to_nat start) s) (skipn (Z.to_nat start) s) [] b) as (u' & E2 & L2).
        + rewrite firstn_skipn. f_equal. rewrite firstn_length. lia.
        + symmetry. apply firstn_skipn.
        + exact T.
        + lia.
        + exists u'. cbn [app length plus] in E2. rewrite firstn_length in E2. replace (Z.of_nat (Nat.min (Z.to_nat start) (length s))) with start in E2 by lia. auto. }
    destruct K as (u' & E2 & L2). rewrite E2. cbn [rbind fst snd]. destruct u' as [|y u']; [cbn in L2; lia|].
    rewrite (mwr_ok _ y u' 0 _ eq_refl). cbn [rbind]. eexists. split; [reflexivity|]. split; [reflexivity|]. cbn [sval mine cblk clen].
    split; [apply text_firstn, text_skipn, T|]. eauto.
  - destruct R' as (B & L & Ow). rewrite B. exists c. split; [reflexivity|]. exact R.
Qed.
Lemma rdrop_snoc f s x : rdrop f (s ++ [x]) = if f x then rdrop f s else s ++ [x].
Proof. unfold rdrop. rewrite rev_app_distr. cbn [rev app drop]. destruct (f x); [reflexivity|]. cbn [rev]. rewrite rev_involutive. reflexivity. Qed.
Lemma rstrip_ok f c : forall n s t, (n <= length s)%nat -> (cown c = true \/ (n = 0)%nat \/ rdrop f s = s) ->
  (forall x, In x s -> forall m, (m < n)%nat -> True) ->
  let kept := firstn (length s - n) s ++ rdrop f (skipn (length s - n) s) in
  exists z, rstrip_loop f c (s ++ t) (Z.of_nat (length s) - 1) n = Ok (kept ++ repeat 0 z ++ t, Z.of_nat (length kept) - 1) /\ (length kept + z = length s)%nat.
Proof.
  induction n as [|n IH]; intros s t L O X; cbv zeta.
  - rewrite Nat.sub_0_r, firstn_all, skipn_all. cbn [rstrip_loop]. exists 0%nat. rewrite app_nil_r. cbn [repeat app]. split; [reflexivity|lia].
  - destruct (destruct_list s) as [(a & l' & E)|E]; [|subst s; cbn in L; lia].
    destruct (exists_last (l := s)) as (s0 & x & ->); [rewrite E; discriminate|]. clear E a l'.
    rewrite app_length in *. cbn [length] in *. cbn [rstrip_loop].
    replace (length s0 + 1 - S n)%nat with (length s0 - n)%nat by lia.
    rewrite (firstn_app (length s0 - n)), (skipn_app (length s0 - n)). replace (length s0 - n - length s0)%nat with 0%nat by lia. cbn [firstn skipn]. rewrite app_nil_r, rdrop_snoc.
    rewrite <- app_assoc. cbn [app]. rewrite (mrd_ok s0 x t) by lia. cbn [rbind]. destruct (f x) eqn:Fx.
    + assert (Ow : cown c = true).
      { destruct O as [O|[O|O]]; [exact O|discriminate|]. rewrite rdrop_snoc, Fx in O. exfalso.
        assert (LR : forall s, (length (rdrop f s) <= length s)%nat).
        { clear. intros s. unfold rdrop. rewrite rev_length. rewrite <- (rev_length s). induction (rev s) as [|c t IH]; [cbn; lia|]. cbn [drop]. destruct (f c); cbn [length]; lia. }
        pose proof (LR s0). apply (f_equal (@length Z)) in O. rewrite app_length in O. cbn [length] in O. lia. }
      unfold own_wr. rewrite Ow, (mwr_ok s0 x t) by lia. cbn [rbind]. replace (Z.of_nat (length s0 + 1) - 1 - 1) with (Z.of_nat (length s0) - 1) by lia.
      destruct (IH s0 (0 :: t) ltac:(lia) (or_introl Ow) ltac:(auto)) as (z & E & Lz). rewrite E. exists (S z). split; [|lia]. f_equal. f_equal.
      f_equal. change (0 :: t) with ([0] ++ t). rewrite app_assoc. f_equal. symmetry. apply repeat_cons.
    + exists 0%nat. cbn [repeat app]. rewrite app_assoc, firstn_skipn, app_length. cbn [length]. rewrite <- app_assoc. split; [reflexivity|lia].
Qed.
Lemma rdrop_ext f g s : (forall x, In x s -> f x = g x) -> rdrop f s = rdrop g s.
Proof.
  intros H. unfold rdrop. f_equal. assert (H' : forall x, In x (rev s) -> f x = g x) by (intros x I; apply H; apply in_rev; exact I).
  induction (rev s) as [|c t IH]; [reflexivity|]. cbn [drop]. rewrite (H' c (or_introl eq_refl)). rewrite IH; [reflexivity|]. intros x I. apply H'. right. exact I.
Qed.
Lemma strchr_one set s : text s -> forall x, In x s -> strchr set x = one_of set x.
Proof. intros T x I. unfold text in T. rewrite Forall_forall in T. unfold strchr. destruct (Z.eqb_spec x 0) as [->|]; [exfalso; exact (T 0 I eq_refl)|reflexivity]. Qed.
Lemma text_rdrop f s : text s -> text (rdrop f s).
Proof. intros T. unfold rdrop. apply Forall_rev. apply text_drop. apply Forall_rev. exact T. Qed.
Lemma rdrop_nil f : rdrop f [] = []. Proof. reflexivity. Qed.
Lemma rdrop_none s : rdrop (one_of []) s = s.
Proof. destruct s as [|x s] using rev_ind; [reflexivity|]. rewrite rdrop_snoc. reflexivity. Qed.
Lemma zeros z t : exists t', repeat 0 z ++ 0 :: t = 0 :: t'.
Proof. destruct z; cbn; eauto. Qed.
Lemma rrip_ok c o set : rep c o -> sop_ok o (ORrip set) -> exists c', rrip c set = Ok c' /\ rep c' (sop o (ORrip set)) /\ cpos c' = cpos c.
Proof.
  intros R OK. unfold rrip. rewrite (rep_empty _ _ R). cbn [sop sop_ok] in *. pose proof R as [O R']. unfold chars_of in *. destruct (sval o) as [s|] eqn:S.
  - destruct R' as (T & L & t & B). destruct s as [|x s]; [exists c; rewrite rdrop_nil; split; [reflexivity|]; split; [|reflexivity]; split; [exact O|]; cbn [sval]; eauto|].
    destruct set as [|d set]; [exists c; rewrite rdrop_none; split; [reflexivity|]; split; [|reflexivity]; split; [exact O|]; cbn [sval]; eauto|].
    set (st := d :: set) in *. rewrite B, L, Nat2Z.id. set (v := x :: s) in *.
    assert (RD : rdrop (strchr st) v = rdrop (one_of st) v) by (apply rdrop_ext, strchr_one, T).
    destruct (rstrip_ok (strchr st) c (length v) v (0 :: t) (Nat.le_refl _)) as (z & E & Lz).
    + rewrite RD, O. tauto.
    + auto.
    + rewrite Nat.sub_diag in *. cbn [firstn skipn app] in *. rewrite E. cbn [rbind fst snd]. rewrite RD in *.
      eexists. split; [reflexivity|]. split; [|reflexivity]. split; [exact O|]. cbn [sval cblk clen]. split; [apply text_rdrop, T|]. split; [lia|].
      destruct (zeros z t) as (t' & ->). eauto.
  - cbn [negb]. destruct R' as (B & L & Ow). exists c. split; [reflexivity|]. split; [exact R|reflexivity].
Qed.
Lemma rrip_n_ok c o n : rep c o -> sop_ok o (ORripN n) -> exists c', rrip_n c n = Ok c' /\ rep c' (sop o (ORripN n)).
Proof.
  intros R OK. unfold rrip_n. rewrite (rep_empty _ _ R). cbn [sop sop_ok] in *. pose proof R as [O R']. unfold chars_of in *. destruct (sval o) as [s|] eqn:S.
  - destruct R' as (T & L & t & B). destruct s as [|x s]; [exists c; split; [reflexivity|]; split; [exact O|]; cbn [sval length]; rewrite firstn_nil; eauto|].
    destruct (Z.ltb_spec n 1) as [H|H]; [exists c; split; [reflexivity|]; split; [exact O|]; cbn [sval]; replace (Z.to_nat n) with 0%nat by lia; rewrite Nat.sub_0_r, firstn_all; eauto|].
    set (v := x :: s) in *. rewrite B, L, Nat2Z.id.
    destruct (rstrip_ok (fun _ => true) c (Nat.min (length v) (Z.to_nat n)) v (0 :: t) ltac:(lia)) as (z & E & Lz).
    + left. destruct OK as [OK|[OK|OK]]; [congruence|lia|discriminate].
    + auto.
    + assert (D : forall s, rdrop (fun _ => true) s = []) by (intros q; unfold rdrop; induction (rev q); [reflexivity|cbn [drop]; assumption]).
      cbv zeta in *. rewrite D, app_nil_r in *. replace (length v - Nat.min (length v) (Z.to_nat n))%nat with (length v - Z.to_nat n)%nat in * by lia.
      rewrite E. cbn [rbind fst snd]. eexists. split; [reflexivity|]. split; [exact O|]. cbn [sval cblk clen]. split; [apply text_firstn, T|]. split; [lia|].
      destruct (zeros z t) as (t' & ->). eauto.
  - destruct R' as (B & L & Ow). exists c. split; [reflexivity|]. exact R.
Qed.

Lemma mop_ok g c o p : rep c o -> sop_ok o p -> exists c', mop g c p = Ok c' /\ rep c' (sop o p).
Proof.
  intros R OK. destruct p as [s|s|x|s n| | |set w|a n| |set|set|n]; cbn [mop sop sop_ok] in *.
  - destruct s as [s|]; [destruct (allocate_ok g s OK) as (c' & E & R' & _); exists c'; auto|]. cbn [allocate]. eexists. split; [reflexivity|]. repeat split.
  - destruct (append_ok g c o s R OK) as (c' & E & R' & _). eauto.
  - destruct (append_char_ok g c o x R OK) as (c' & E & R' & _). eauto.
  - destruct OK. destruct (appendn_ok g c o s n R) as (c' & E & R' & _); eauto.
  - apply in_place_ok; [exact R|]. intros x. unfold up. destruct (Z.leb_spec 97 x), (Z.leb_spec x 122); cbn [andb]; lia.
  - apply in_place_ok; [exact R|]. intros x. unfold down. destruct (Z.leb_spec 65 x), (Z.leb_spec x 90); cbn [andb]; lia.
  - unfold replace_set. destruct (in_place_ok g (fun x => if strchr set x then w else x) c o R) as (c' & E & R').
    + intros x Hx. destruct (strchr set x); [exact OK|exact Hx].
    + exists c'. split; [exact E|]. unfold change in *. pose proof R as [_ RT]. destruct (sval o) as [s|]; [|exact R'].
      replace (map (fun c0 => if one_of set c0 then w else c0) s) with (map (fun x => if strchr set x then w else x) s); [exact R'|].
      apply map_ext_in. intros x I. rewrite (strchr_one set s) by (try apply RT; exact I). reflexivity.
  - destruct OK. apply keep_ok; assumption.
  - apply ltrim_ok. exact R.
  - apply lrip_ok. exact R.
  - destruct (rrip_ok c o set R OK) as (c' & E & R' & _). eauto.
  - apply rrip_n_ok; assumption.
Qed.
