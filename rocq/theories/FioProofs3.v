(** Proofs about console input: the line editor and its echo. *)
From Verif Require Import Base FioModel FioSpec FioObs FioProofs FioProofs2.

(* ----------------------------------------------------------- the terminal *)
Definition cells (t : term) (p : Z) (txt : list Z) : Prop :=
  forall i, 0 <= i -> cell t (p + i) = nth (Z.to_nat i) txt 32.

Lemma put_text_spec s : forall t, Forall (fun c => c <> 10) s ->
  col (put_text t s) = col t + Z.of_nat (length s) /\ saved (put_text t s) = saved t /\
  forall i, cell (put_text t s) i =
    if (col t <=? i) && (i <? col t + Z.of_nat (length s)) then nth (Z.to_nat (i - col t)) s 32 else cell t i.
Proof.
  induction s as [|c s IH]; intros t H; [cbn; split; [lia|]; split; [reflexivity|]; intros i; replace (_ && _) with false by lia; reflexivity|].
  inversion H; subst. unfold put_text. cbn [fold_left]. fold (put_text (put_char t c) s).
  destruct (IH (put_char t c) H3) as (C1 & C2 & C3). unfold put_char in *.
  destruct (Z.eqb_spec c 10); [contradiction|]. cbn [col saved cell length] in *.
  split; [lia|]. split; [exact C2|]. intros i. rewrite C3.
  destruct (Z.eq_dec i (col t)) as [->|Hi].
  - replace ((col t + 1 <=? col t) && _) with false by lia.
    replace ((col t <=? col t) && _) with true by lia. rewrite Z.eqb_refl, Z.sub_diag. reflexivity.
  - replace (i =? col t) with false by lia.
    destruct ((col t + 1 <=? i) && (i <? col t + 1 + Z.of_nat (length s))) eqn:E.
    + replace ((col t <=? i) && _) with true by lia.
      replace (Z.to_nat (i - col t)) with (S (Z.to_nat (i - (col t + 1)))) by lia. reflexivity.
    + replace ((col t <=? i) && _) with false by lia. reflexivity.
Qed.
(** Writing over the rest of the row. *)
Lemma write_over t p b r s : cells t p (b ++ r) -> col t = p + Z.of_nat (length b) ->
  Forall (fun c => c <> 10) s -> (length r <= length s)%nat ->
  cells (put_text t s) p (b ++ s) /\ col (put_text t s) = p + Z.of_nat (length b) + Z.of_nat (length s) /\
  saved (put_text t s) = saved t.
Proof.
  intros H C N L. destruct (put_text_spec s t N) as (C1 & C2 & C3). split; [|split; [lia|exact C2]].
  intros i Hi. rewrite C3, C.
  destruct ((p + Z.of_nat (length b) <=? p + i) && (p + i <? p + Z.of_nat (length b) + Z.of_nat (length s))) eqn:E.
  - rewrite app_nth2 by lia. f_equal. lia.
  - rewrite H by exact Hi. destruct (Z.lt_ge_cases i (Z.of_nat (length b))) as [Hl|Hl].
    + rewrite !app_nth1 by lia. reflexivity.
    + rewrite !nth_overflow; [reflexivity| |]; rewrite app_length; lia.
Qed.
Lemma nth_spaces s n i : nth i (s ++ repeat 32 n) 32 = nth i s 32.
Proof.
  destruct (Nat.lt_ge_cases i (length s)) as [H|H]; [apply app_nth1; exact H|].
  rewrite app_nth2, (nth_overflow s) by exact H. generalize (i - length s)%nat. induction n as [|n IH]; intros [|k]; cbn; auto.
Qed.
Lemma cells_spaces t p s n : cells t p (s ++ repeat 32 n) -> cells t p s.
Proof. intros H i Hi. rewrite (H i Hi). apply nth_spaces. Qed.
Lemma play_app t a b : play t (a ++ b) = play (play t a) b.
Proof. unfold play. apply fold_left_app. Qed.
Lemma put_text_app t a b : put_text t (a ++ b) = put_text (put_text t a) b.
Proof. unfold put_text. apply fold_left_app. Qed.
Lemma play_spaces n : forall t, play t (repeat (EText [32]) n) = put_text t (repeat 32 n).
Proof. induction n as [|n IH]; intros t; [reflexivity|]. cbn [repeat]. unfold play, put_text in *. cbn [fold_left show_ev]. unfold put_text. cbn [fold_left]. rewrite IH. reflexivity. Qed.
Lemma no10 s : Forall printable s -> Forall (fun c => c <> 10) s.
Proof. apply Forall_impl. unfold printable. lia. Qed.
Lemma no10_spaces n : Forall (fun c => c <> 10) (repeat 32 n).
Proof. induction n; constructor; [lia|assumption]. Qed.

(** The line is wiped. *)
Definition wipe (cur l : Z) : list ev :=
  (if 0 <? cur then [ELeft cur] else []) ++ [ESave] ++ repeat (EText [32]) (Z.to_nat l) ++ [ERestore].
Lemma wipe_ok t p txt cur : shows t p txt cur -> 0 <= cur <= Z.of_nat (length txt) ->
  shows (play t (wipe cur (Z.of_nat (length txt)))) p [] 0.
Proof.
  intros (P & C & H) B. unfold wipe. rewrite !play_app.
  set (t1 := play t (if 0 <? cur then [ELeft cur] else [])).
  assert (T1 : cells t1 p txt /\ col t1 = p).
  { unfold t1. destruct (Z.ltb_spec 0 cur); unfold play; cbn [fold_left show_ev t_left col cell cells].
    - split; [exact H|]. lia.
    - split; [exact H|]. lia. }
  destruct T1 as [T1 T2]. clearbody t1. rewrite play_spaces. unfold play at 2. cbn [fold_left show_ev].
  rewrite Nat2Z.id.
  destruct (write_over (t_save t1) p [] txt (repeat 32 (length txt))) as (W1 & W2 & W3).
  - exact T1.
  - cbn [t_save col length]. lia.
  - apply no10_spaces.
  - rewrite repeat_length. lia.
  - unfold play. cbn [fold_left show_ev]. unfold shows, t_restore. cbn [col cell]. rewrite W3. cbn [t_save saved].
    split; [exact P|]. split; [lia|]. cbn [app] in W1. apply (cells_spaces _ p [] (length txt)). exact W1.
Qed.

(* ------------------------------------------------------------ the relation *)
Definition okline (s : list Z) : Prop := Forall printable s /\ Z.of_nat (length s) <= 1023.
Record Rf (f : fio) (e : ed) (p : list Z) : Prop := {
  R_cook : fcook f = true;
  R_line : seg (fline f) 0 (text e ++ [0]);
  R_text : okline (text e);
  R_cur : fcur f = Z.of_nat (length (before e));
  R_past : hitems (fhist f) = past e;
  R_place : hnr (fhist f) = Z.of_nat (place e);
  R_plines : Forall okline (past e);
  R_nl : flast f = nl e;
  R_ring : ring_ok (fring f) (input e);
  R_esc : seg (fesc f) 0 (p ++ [0]);
  R_pend : pend_ok p }.

Definition key_of (k : Z) : key :=
  if k =? TU_LEFT then KLeft else if k =? TU_RIGHT then KRight
  else if (k =? TU_HOME) || (k =? 1) then KHome else if (k =? TU_END) || (k =? 5) then KEnd
  else if k =? TU_UP then KUp else if k =? TU_DOWN then KDown
  else if (k =? 10) || (k =? 13) then KEnter k
  else if (k =? 127) || (k =? 8) then KBack else if k =? TU_DEL then KDel
  else if k =? 11 then KKill
  else if (32 <=? k) && (k <=? 126) then KChar k else KOther.

(** Column where the line starts after a key: Enter starts a new row. *)
Definition base_after (e : ed) (k : key) (p : Z) : Z :=
  match k with
  | KEnter n => if negb (nl e =? 0) && negb (nl e =? n) then p else 0
  | _ => p
  end.
Definition echo_ok (e : ed) (k : key) (evs : list ev) : Prop :=
  forall t p, shows t p (text e) (Z.of_nat (length (before e))) ->
    shows (play t evs) (base_after e k p) (text (edit e k)) (Z.of_nat (length (before (edit e k)))).
Definition cook_post (f : fio) (e : ed) (p : list Z) (k : key) (r : res (fio * Z * list ev)) : Prop :=
  exists f' ret evs, r = Ok (f', ret, evs) /\ Rf f' (edit e k) p /\ echo_ok e k evs.

Lemma printable_nz s : Forall printable s -> nz s.
Proof. apply Forall_impl. unfold printable. lia. Qed.
Lemma ok_app a b : okline (a ++ b) -> Forall printable a /\ Forall printable b.
Proof. intros [H _]. apply Forall_app in H. exact H. Qed.

Lemma strlen_line f e p : Rf f e p -> strlen 1024 (fline f) = Ok (Z.of_nat (length (text e))).
Proof.
  intros H. unfold strlen. rewrite (seg_strlen _ (text e)); [reflexivity|apply (R_line _ _ _ H)| |].
  - apply printable_nz. apply (R_text _ _ _ H).
  - destruct (R_text _ _ _ H). lia.
Qed.
Lemma line_parts f e p : Rf f e p ->
  seg (fline f) 0 (before e) /\ seg (fline f) (fcur f) (after e ++ [0]) /\
  Forall printable (before e) /\ Forall printable (after e) /\
  Z.of_nat (length (before e)) + Z.of_nat (length (after e)) <= 1023 /\ fcur f = Z.of_nat (length (before e)).
Proof.
  intros H. pose proof (R_line _ _ _ H) as L. pose proof (R_text _ _ _ H) as T. unfold text in *.
  rewrite <- app_assoc in L. apply seg_app in L. destruct L as [L1 L2]. rewrite (R_cur _ _ _ H).
  destruct (ok_app _ _ T). destruct T as [_ T]. rewrite app_length in T. cbn [Z.add] in L2.
  repeat split; assumption || lia.
Qed.
Lemma at_cursor f e p : Rf f e p -> ard 1024 (fline f) (fcur f) = Ok (hd 0 (after e)) /\
  ((hd 0 (after e) =? 0) = match after e with [] => true | _ => false end).
Proof.
  intros H. destruct (line_parts _ _ _ H) as (_ & L & _ & P & B & C). rewrite ard_in by lia.
  destruct (after e) as [|c t]; cbn [app seg] in L; destruct L as [L _]; rewrite L; cbn [hd]; split; try reflexivity.
  inversion P; subst. unfold printable in *. lia.
Qed.

(** Changing only the line. *)
Lemma Rf_line f e p a c b r : Rf f e p -> seg a 0 ((b ++ r) ++ [0]) -> okline (b ++ r) -> c = Z.of_nat (length b) ->
  Rf (set_line f a c) (with_line e b r) p.
Proof.
  intros H S O E. destruct H. constructor; cbn [fcook set_line fline fcur fhist flast fring fesc with_line past place nl input before text]; try assumption.
Qed.
Lemma with_same e : with_line e (before e) (after e) = e.
Proof. destruct e; reflexivity. Qed.
Lemma shows_same t p b r (b' : list Z) : shows t p (b ++ r) (Z.of_nat (length b)) -> forall t', cell t' = cell t ->
  col t' = p + Z.of_nat (length b') -> shows t' p (b ++ r) (Z.of_nat (length b')).
Proof. intros (P & C & H) t' E1 E2. split; [exact P|]. split; [exact E2|]. rewrite E1. exact H. Qed.

Lemma text_with e b r : text (with_line e b r) = b ++ r.
Proof. reflexivity. Qed.
Lemma before_with e b r : before (with_line e b r) = b.
Proof. reflexivity. Qed.

Lemma post_same f e p k ret : Rf f e p -> edit e k = e -> base_after e k = (fun p => p) ->
  cook_post f e p k (Ok (f, ret, [])).
Proof.
  intros H E B. exists f, ret, []. split; [reflexivity|]. unfold echo_ok. rewrite E, B. split; [exact H|]. intros t q S. exact S.
Qed.

Lemma cook_left f e p ret : Rf f e p ->
  cook_post f e p KLeft (if 0 <? fcur f then Ok (set_line f (fline f) (fcur f - 1), ret, [ELeft 1]) else Ok (f, ret, [])).
Proof.
  intros H. destruct (line_parts _ _ _ H) as (L1 & L2 & P1 & P2 & B & C).
  destruct (rev (before e)) as [|c r] eqn:ER.
  - assert (before e = []) as E0 by (rewrite <- (rev_involutive (before e)), ER; reflexivity).
    rewrite C, E0. cbn [length]. change (0 <? Z.of_nat 0) with false. cbv iota.
    apply post_same; [exact H|cbn [edit]; rewrite ER; reflexivity|reflexivity].
  - assert (EB : before e = rev r ++ [c]) by (rewrite <- (rev_involutive (before e)), ER; reflexivity).
    assert (LB : Z.of_nat (length (before e)) = Z.of_nat (length (rev r)) + 1) by (rewrite EB, app_length; cbn [length]; lia).
    replace (0 <? fcur f) with true by lia.
    eexists _, _, _. split; [reflexivity|]. unfold echo_ok. cbn [edit]. rewrite ER.
    assert (ET : rev r ++ c :: after e = text e) by (unfold text; rewrite EB, <- app_assoc; reflexivity).
    split.
    + apply Rf_line; [exact H| | |lia]; rewrite ET; [apply (R_line _ _ _ H)|apply (R_text _ _ _ H)].
    + intros t q S. cbn [base_after]. rewrite text_with, before_with. rewrite ET. unfold text in *.
      unfold play. cbn [fold_left show_ev]. destruct S as (S1 & S2 & S3). split; [exact S1|]. split; [cbn [t_left col]; lia|exact S3].
Qed.
Lemma cook_right f e p ret : Rf f e p ->
  cook_post f e p KRight (x <- ard 1024 (fline f) (fcur f) ;;
    if negb (x =? 0) then Ok (set_line f (fline f) (fcur f + 1), ret, [ERight 1]) else Ok (f, ret, [])).
Proof.
  intros H. destruct (line_parts _ _ _ H) as (L1 & L2 & P1 & P2 & B & C). destruct (at_cursor _ _ _ H) as [A1 A2].
  rewrite A1. cbn [rbind]. rewrite A2. destruct (after e) as [|c r] eqn:ER; cbn [negb].
  - apply post_same; [exact H|cbn [edit]; rewrite ER; reflexivity|reflexivity].
  - eexists _, _, _. split; [reflexivity|]. unfold echo_ok. cbn [edit]. rewrite ER.
    assert (ET : (before e ++ [c]) ++ r = text e) by (unfold text; rewrite ER, <- app_assoc; reflexivity).
    split.
    + apply Rf_line; [exact H| | |rewrite app_length; cbn [length]; lia]; rewrite ET; [apply (R_line _ _ _ H)|apply (R_text _ _ _ H)].
    + intros t q S. cbn [base_after]. rewrite text_with, before_with. rewrite ET, app_length. cbn [length].
      unfold play. cbn [fold_left show_ev]. destruct S as (S1 & S2 & S3). split; [exact S1|]. split; [cbn [t_right col]; lia|exact S3].
Qed.
Lemma cook_home f e p ret : Rf f e p ->
  cook_post f e p KHome (if 0 <? fcur f then Ok (set_line f (fline f) 0, ret, [ELeft (fcur f)]) else Ok (f, ret, [])).
Proof.
  intros H. destruct (line_parts _ _ _ H) as (L1 & L2 & P1 & P2 & B & C).
  destruct (0 <? fcur f) eqn:E0.
  - eexists _, _, _. split; [reflexivity|]. unfold echo_ok. cbn [edit]. split.
    + apply Rf_line; [exact H| | |reflexivity]; cbn [app]; [apply (R_line _ _ _ H)|apply (R_text _ _ _ H)].
    + intros t q S. cbn [base_after]. rewrite text_with, before_with. cbn [app length].
      unfold play. cbn [fold_left show_ev]. destruct S as (S1 & S2 & S3). split; [exact S1|]. split; [cbn [t_left col]; lia|exact S3].
  - assert (EB : before e = []) by (destruct (before e); [reflexivity|cbn [length] in C; lia]).
    apply post_same; [exact H| |reflexivity]. cbn [edit]. unfold text. rewrite EB. cbn [app]. rewrite <- EB. apply with_same.
Qed.
Lemma cook_end f e p ret : Rf f e p ->
  cook_post f e p KEnd (x <- ard 1024 (fline f) (fcur f) ;;
    if negb (x =? 0) then Ok (set_line f (fline f) (Z.of_nat (length (text e))), ret, [ERight (Z.of_nat (length (text e)) - fcur f)])
    else Ok (f, ret, [])).
Proof.
  intros H. destruct (line_parts _ _ _ H) as (L1 & L2 & P1 & P2 & B & C). destruct (at_cursor _ _ _ H) as [A1 A2].
  rewrite A1. cbn [rbind]. rewrite A2. destruct (after e) as [|c r] eqn:ER; cbn [negb].
  - apply post_same; [exact H| |reflexivity]. cbn [edit]. unfold text. rewrite ER, app_nil_r. rewrite <- ER. apply with_same.
  - eexists _, _, _. split; [reflexivity|]. unfold echo_ok. cbn [edit]. split.
    + apply Rf_line; [exact H| | |reflexivity]; rewrite app_nil_r; [apply (R_line _ _ _ H)|apply (R_text _ _ _ H)].
    + intros t q S. cbn [base_after]. rewrite text_with, before_with. rewrite app_nil_r.
      unfold play. cbn [fold_left show_ev]. destruct S as (S1 & S2 & S3). split; [exact S1|]. split; [|exact S3].
      cbn [t_right col]. assert (LT : Z.of_nat (length (text e)) = Z.of_nat (length (before e)) + Z.of_nat (length (after e))) by (unfold text; rewrite app_length; lia).
      rewrite ER in LT. cbn [length] in LT. lia.
Qed.

(** Writing the text after the cursor again, followed by a blank. *)
Lemma erase_tail t p b r rest : shows t p (b ++ r) (Z.of_nat (length b)) -> Forall printable rest -> (length r <= length rest + 1)%nat ->
  shows (play t ([ESave] ++ (if negb (match rest with [] => true | _ => false end) then [EText rest] else []) ++ [EText [32]; ERestore])) p
    (b ++ rest) (Z.of_nat (length b)).
Proof.
  intros (P & C & H) F L. rewrite !play_app.
  assert (E : play (play t [ESave]) (if negb (match rest with [] => true | _ => false end) then [EText rest] else []) = put_text (t_save t) rest)
    by (destruct rest; reflexivity).
  rewrite E. unfold play. cbn [fold_left show_ev]. rewrite <- put_text_app.
  destruct (write_over (t_save t) p b r (rest ++ [32])) as (W1 & W2 & W3).
  - exact H.
  - exact C.
  - apply Forall_app. split; [apply no10; exact F|repeat constructor; lia].
  - rewrite app_length. cbn [length]. lia.
  - unfold shows, t_restore. cbn [col cell]. rewrite W3. cbn [t_save saved]. split; [exact P|]. split; [exact C|].
    rewrite app_assoc in W1. apply (cells_spaces _ p (b ++ rest) 1). exact W1.
Qed.

Lemma cook_back f e p ret : Rf f e p ->
  cook_post f e p KBack
   (if 0 <? fcur f then
      a1 <- shift_left 1024 (fline f) (fcur f) ;;
      a2 <- awr 1024 a1 (Z.of_nat (length (text e)) - 1) 0 ;;
      Ok (set_line f a2 (fcur f - 1), ret,
          [ELeft 1; ESave] ++
          (if negb (a2 (fcur f - 1) =? 0) then [EText (chars_of a2 (fcur f - 1) (Z.to_nat (Z.of_nat (length (text e)) - fcur f)))] else []) ++
          [EText [32]; ERestore])
    else Ok (f, ret, [])).
Proof.
  intros H. destruct (line_parts _ _ _ H) as (L1 & L2 & P1 & P2 & B & C).
  destruct (0 <? fcur f) eqn:E0.
  2:{ assert (EB : before e = []) by (destruct (before e); [reflexivity|cbn [length] in C; lia]).
      apply post_same; [exact H| |reflexivity]. cbn [edit]. rewrite EB. cbn [removelast]. rewrite <- EB. apply with_same. }
  assert (LT : Z.of_nat (length (text e)) = Z.of_nat (length (before e)) + Z.of_nat (length (after e))) by (unfold text; rewrite app_length; lia).
  destruct (exists_last (l := before e)) as (b & c & EB). { intros E. rewrite E in C. cbn in C. lia. }
  assert (LB : Z.of_nat (length (before e)) = Z.of_nat (length b) + 1) by (rewrite EB, app_length; cbn [length]; lia).
  destruct (shift_left_ok (after e) 1024 (fline f) (fcur f)) as (a1 & E1 & S1 & S2); try assumption; try lia.
  { apply printable_nz. exact P2. }
  rewrite E1. cbn [rbind]. rewrite awr_in by lia. cbn [rbind].
  set (a2 := aset a1 _ 0).
  assert (SA : seg a2 (fcur f - 1) (after e ++ [0])).
  { apply seg_app. split; [apply seg_aset_out; [lia|exact S1]|]. cbn [seg]. split; [|exact I].
    unfold a2. replace (fcur f - 1 + Z.of_nat (length (after e))) with (Z.of_nat (length (text e)) - 1) by lia. apply aset_same. }
  assert (SB : seg a2 0 b).
  { apply seg_aset_out; [lia|]. apply (seg_ext (fline f)); [intros j Hj; symmetry; apply S2; lia|].
    rewrite EB in L1. apply seg_app in L1. apply L1. }
  assert (RL : removelast (before e) = b) by (rewrite EB; apply removelast_last).
  assert (CH : chars_of a2 (fcur f - 1) (Z.to_nat (Z.of_nat (length (text e)) - fcur f)) = after e).
  { replace (Z.to_nat (Z.of_nat (length (text e)) - fcur f)) with (length (after e)) by lia. apply seg_chars. apply seg_app in SA. apply SA. }
  rewrite CH.
  assert (HZ : (a2 (fcur f - 1) =? 0) = match after e with [] => true | _ => false end).
  { destruct (after e) as [|d r]; cbn [app seg] in SA; destruct SA as [SA _]; rewrite SA; [reflexivity|]. inversion P2; subst. unfold printable in *. lia. }
  rewrite HZ.
  eexists _, _, _. split; [reflexivity|]. unfold echo_ok. cbn [edit]. rewrite RL. split.
  - apply Rf_line; [exact H| | |lia].
    + rewrite <- app_assoc. apply seg_app. split; [exact SB|]. replace (0 + Z.of_nat (length b)) with (fcur f - 1) by lia. exact SA.
    + split; [|rewrite app_length; lia]. apply Forall_app. split; [|exact P2]. rewrite EB in P1. apply Forall_app in P1. apply P1.
  - intros t q S. cbn [base_after]. rewrite text_with, before_with.
    change ([ELeft 1; ESave] ++ ?x) with ([ELeft 1] ++ [ESave] ++ x). rewrite play_app.
    apply (erase_tail _ q b (c :: after e)); [|exact P2|cbn [length]; lia].
    destruct S as (T1 & T2 & T3). unfold play. cbn [fold_left show_ev]. split; [exact T1|]. split; [cbn [t_left col]; lia|].
    unfold text in T3. rewrite EB, <- app_assoc in T3. exact T3.
Qed.
Lemma cook_del f e p ret : Rf f e p ->
  cook_post f e p KDel
   (x <- ard 1024 (fline f) (fcur f) ;;
    if negb (x =? 0) then
      a1 <- shift_left 1024 (fline f) (fcur f + 1) ;;
      a2 <- awr 1024 a1 (Z.of_nat (length (text e)) - 1) 0 ;;
      Ok (set_line f a2 (fcur f), ret,
          [ESave] ++ (if negb (a2 (fcur f) =? 0) then [EText (chars_of a2 (fcur f) (Z.to_nat (Z.of_nat (length (text e)) - 1 - fcur f)))] else []) ++
          [EText [32]; ERestore])
    else Ok (f, ret, [])).
Proof.
  intros H. destruct (line_parts _ _ _ H) as (L1 & L2 & P1 & P2 & B & C). destruct (at_cursor _ _ _ H) as [A1 A2].
  rewrite A1. cbn [rbind]. rewrite A2. destruct (after e) as [|c r] eqn:ER; cbn [negb].
  { apply post_same; [exact H| |reflexivity]. cbn [edit]. rewrite ER. cbn [tl]. rewrite <- ER. apply with_same. }
  assert (LT : Z.of_nat (length (text e)) = Z.of_nat (length (before e)) + Z.of_nat (length r) + 1)
    by (unfold text; rewrite ER, app_length; cbn [length]; lia).
  cbn [app seg length] in L2, B. destruct L2 as [Lc L2]. assert (P2' : printable c /\ Forall printable r) by (inversion P2; auto). destruct P2' as [Pc P2r].
  destruct (shift_left_ok r 1024 (fline f) (fcur f + 1)) as (a1 & E1 & S1 & S2); try assumption; try lia.
  { apply printable_nz. assumption. }
  rewrite E1. cbn [rbind]. rewrite awr_in by lia. cbn [rbind].
  set (a2 := aset a1 _ 0).
  assert (SA : seg a2 (fcur f) (r ++ [0])).
  { replace (fcur f + 1 - 1) with (fcur f) in S1 by lia.
    apply seg_app. split; [apply seg_aset_out; [lia|exact S1]|]. cbn [seg]. split; [|exact I].
    unfold a2. replace (fcur f + Z.of_nat (length r)) with (Z.of_nat (length (text e)) - 1) by lia. apply aset_same. }
  assert (SB : seg a2 0 (before e)).
  { apply seg_aset_out; [lia|]. apply (seg_ext (fline f)); [intros j Hj; symmetry; apply S2; lia|]. exact L1. }
  assert (CH : chars_of a2 (fcur f) (Z.to_nat (Z.of_nat (length (text e)) - 1 - fcur f)) = r).
  { replace (Z.to_nat (Z.of_nat (length (text e)) - 1 - fcur f)) with (length r) by lia. apply seg_chars. apply seg_app in SA. apply SA. }
  rewrite CH.
  assert (HZ : (a2 (fcur f) =? 0) = match r with [] => true | _ => false end).
  { destruct r as [|d r']; cbn [app seg] in SA; destruct SA as [SA _]; rewrite SA; [reflexivity|].
    inversion P2r; subst. unfold printable in *. lia. }
  rewrite HZ.
  eexists _, _, _. split; [reflexivity|]. unfold echo_ok. cbn [edit]. rewrite ER. cbn [tl]. split.
  - apply Rf_line; [exact H| | |exact C].
    + rewrite <- app_assoc. apply seg_app. split; [exact SB|]. replace (0 + Z.of_nat (length (before e))) with (fcur f) by lia. exact SA.
    + split; [|rewrite app_length; lia]. apply Forall_app. split; assumption.
  - intros t q S. cbn [base_after]. rewrite text_with, before_with.
    apply (erase_tail _ q (before e) (c :: r)); [|assumption|cbn [length]; lia].
    unfold text in S. rewrite ER in S. exact S.
Qed.
Lemma cook_kill f e p ret : Rf f e p ->
  cook_post f e p KKill (Ok (set_line f (aset (fline f) 0 0) 0, ret, wipe (fcur f) (Z.of_nat (length (text e))))).
Proof.
  intros H. destruct (line_parts _ _ _ H) as (L1 & L2 & P1 & P2 & B & C).
  eexists _, _, _. split; [reflexivity|]. unfold echo_ok. cbn [edit]. split.
  - apply Rf_line; [exact H| | |reflexivity]; cbn [app].
    + cbn [seg]. split; [apply aset_same|exact I].
    + split; [constructor|cbn; lia].
  - intros t q S. cbn [base_after]. rewrite text_with, before_with. cbn [app length]. change (Z.of_nat 0) with 0.
    rewrite C. apply wipe_ok; [exact S|]. unfold text. rewrite app_length. lia.
Qed.
Lemma cook_char f e p ret k : Rf f e p -> printable k ->
  cook_post f e p (KChar k)
   (if Z.of_nat (length (text e)) <? 1023 then
        x <- ard 1024 (fline f) (fcur f) ;;
        if x =? 0 then
          a1 <- awr 1024 (fline f) (fcur f) k ;;
          a2 <- awr 1024 a1 (fcur f + 1) 0 ;;
          Ok (set_line f a2 (fcur f + 1), ret, [EText [k]])
        else
          a1 <- shift_right (Z.to_nat (Z.of_nat (length (text e)) - fcur f + 1)) (fline f) (Z.of_nat (length (text e))) ;;
          a2 <- awr 1024 a1 (fcur f) k ;;
          Ok (set_line f a2 (fcur f + 1), ret,
              [ESave; EText (chars_of a2 (fcur f) (Z.to_nat (Z.of_nat (length (text e)) - fcur f + 1))); ERestore; ERight 1])
    else Ok (f, ret, [])).
Proof.
  intros H Pk. destruct (line_parts _ _ _ H) as (L1 & L2 & P1 & P2 & B & C). destruct (at_cursor _ _ _ H) as [A1 A2].
  assert (LT : Z.of_nat (length (text e)) = Z.of_nat (length (before e)) + Z.of_nat (length (after e))) by (unfold text; rewrite app_length; lia).
  destruct (Z.of_nat (length (text e)) <? 1023) eqn:E1.
  2:{ apply post_same; [exact H| |reflexivity]. cbn [edit]. rewrite E1. reflexivity. }
  assert (OK : okline ((before e ++ [k]) ++ after e)).
  { split; [|rewrite !app_length; cbn [length]; lia]. repeat (apply Forall_app; split); try assumption. repeat constructor; apply Pk. }
  assert (LB : Z.of_nat (length (before e ++ [k])) = Z.of_nat (length (before e)) + 1) by (rewrite app_length; cbn [length]; lia).
  rewrite A1. cbn [rbind]. rewrite A2. destruct (after e) as [|c r] eqn:ER.
  - rewrite awr_in by lia. cbn [rbind]. rewrite awr_in by lia. cbn [rbind].
    eexists _, _, _. split; [reflexivity|]. unfold echo_ok. cbn [edit]. rewrite E1, ER. split.
    + apply Rf_line; [exact H| |exact OK|lia]. rewrite app_nil_r, <- app_assoc. apply seg_app. split.
      * apply seg_aset_out; [lia|]. apply seg_aset_out; [lia|]. exact L1.
      * cbn [app seg]. replace (0 + Z.of_nat (length (before e))) with (fcur f) by lia.
        rewrite aset_other by lia. rewrite !aset_same. auto.
    + intros t q (T1 & T2 & T3). cbn [base_after]. rewrite text_with, before_with. rewrite app_nil_r, LB.
      unfold play. cbn [fold_left show_ev].
      destruct (write_over t q (before e) [] [k]) as (W1 & W2 & W3).
      * unfold text in T3. rewrite ER in T3. exact T3.
      * exact T2.
      * repeat constructor. unfold printable in Pk. lia.
      * cbn. lia.
      * split; [exact T1|]. split; [cbn [length] in W2; lia|exact W1].
  - assert (LE : Z.to_nat (Z.of_nat (length (text e)) - fcur f + 1) = length ((c :: r) ++ [0])) by (rewrite app_length; cbn [length] in *; lia).
    rewrite LE.
    destruct (shift_right_ok ((c :: r) ++ [0]) (fline f) (fcur f) L2) as (a1 & Ea & S1 & S2); [lia|rewrite app_length; cbn [length] in *; lia|].
    replace (fcur f + Z.of_nat (length ((c :: r) ++ [0])) - 1) with (Z.of_nat (length (text e))) in Ea by (rewrite app_length; cbn [length] in *; lia).
    rewrite Ea. cbn [rbind]. rewrite awr_in by lia. cbn [rbind].
    set (a2 := aset a1 (fcur f) k).
    assert (SA : seg a2 (fcur f) ([k] ++ (c :: r) ++ [0])).
    { split; [apply aset_same|]. fold (seg a2 (fcur f + 1) ((c :: r) ++ [0])). apply seg_aset_out; [lia|exact S1]. }
    assert (SB : seg a2 0 (before e)).
    { apply seg_aset_out; [lia|]. apply (seg_ext (fline f)); [intros j Hj; symmetry; apply S2; lia|]. exact L1. }
    assert (CH : chars_of a2 (fcur f) (length ((c :: r) ++ [0])) = k :: c :: r).
    { replace (length ((c :: r) ++ [0])) with (length (k :: c :: r)) by (rewrite app_length; cbn [length]; lia).
      apply seg_chars. rewrite app_assoc in SA. apply seg_app in SA. apply SA. }
    rewrite CH. eexists _, _, _. split; [reflexivity|]. unfold echo_ok. cbn [edit]. rewrite E1, ER. split.
    + apply Rf_line; [exact H| |exact OK|lia]. rewrite <- !app_assoc. apply seg_app. split; [exact SB|].
      replace (0 + Z.of_nat (length (before e))) with (fcur f) by lia. exact SA.
    + intros t q (T1 & T2 & T3). cbn [base_after]. rewrite text_with, before_with. rewrite LB.
      unfold play. cbn [fold_left show_ev].
      destruct (write_over (t_save t) q (before e) (c :: r) (k :: c :: r)) as (W1 & W2 & W3).
      * unfold text in T3. rewrite ER in T3. exact T3.
      * exact T2.
      * constructor; [unfold printable in Pk; lia|apply no10; exact P2].
      * cbn [length]. lia.
      * split; [exact T1|]. cbn [t_right t_restore col cell saved]. rewrite W3. cbn [t_save saved]. split; [lia|].
        rewrite <- app_assoc. exact W1.
Qed.

Lemma keep_eq f e p : Rf f e p -> hitems (hreplace (fhist f) (text e)) = keep e /\ hnr (hreplace (fhist f) (text e)) = Z.of_nat (place e).
Proof.
  intros H. unfold hreplace, hcount, keep. rewrite (R_past _ _ _ H), (R_place _ _ _ H).
  destruct (Nat.ltb_spec (place e) (length (past e))).
  - replace (_ <? _) with true by lia. cbn [hitems hnr]. rewrite Nat2Z.id. auto.
  - replace (_ <? _) with false by lia. split; [apply (R_past _ _ _ H)|apply (R_place _ _ _ H)].
Qed.
Lemma upd_Forall {A} (P : A -> Prop) l n x : Forall P l -> P x -> Forall P (upd l n x).
Proof. intros H Hx. revert n. induction H; intros [|n]; cbn [upd]; constructor; auto. Qed.
Lemma keep_ok f e p : Rf f e p -> Forall okline (keep e).
Proof.
  intros H. unfold keep. destruct (_ <? _)%nat; [|apply (R_plines _ _ _ H)].
  apply upd_Forall; [apply (R_plines _ _ _ H)|apply (R_text _ _ _ H)].
Qed.
Lemma keep_len e : length (keep e) = length (past e).
Proof. unfold keep. destruct (_ <? _)%nat; [apply upd_length|reflexivity]. Qed.
Lemma nth_ok (l : list (list Z)) n : Forall okline l -> okline (nth n l []).
Proof.
  intros H. destruct (Nat.lt_ge_cases n (length l)) as [L|L].
  - rewrite Forall_forall in H. apply H. apply nth_In. exact L.
  - rewrite nth_overflow by exact L. split; [constructor|cbn; lia].
Qed.

Lemma cook_show f e p ret h n k : Rf f e p -> hitems h = keep e -> hnr h = Z.of_nat n ->
  edit e k = look e n -> base_after e k = (fun p => p) ->
  cook_post f e p k (fe <- show_item (set_hist f h) (Z.of_nat (length (text e))) (hitem h) ;; Ok (fst fe, ret, snd fe)).
Proof.
  intros H HI HN EK EB. pose proof (keep_ok _ _ _ H) as KO. pose proof (nth_ok _ n KO) as NO.
  destruct (line_parts _ _ _ H) as (_ & _ & _ & _ & BB & CC).
  assert (HS : hitem h = if (n <? length (keep e))%nat then Some (nth n (keep e) []) else None).
  { unfold hitem, hcount. rewrite HI, HN. destruct (Nat.ltb_spec n (length (keep e))).
    - replace (_ <? _) with true by lia. rewrite Nat2Z.id. apply nth_error_nth'. assumption.
    - replace (_ <? _) with false by lia. reflexivity. }
  assert (EV : exists a, seg a 0 (nth n (keep e) [] ++ [0]) /\
     exists evs, show_item (set_hist f h) (Z.of_nat (length (text e))) (hitem h) =
       Ok (set_line (set_hist f h) a (Z.of_nat (length (nth n (keep e) []))), wipe (fcur f) (Z.of_nat (length (text e))) ++ evs) /\
       forall t, play t evs = put_text t (nth n (keep e) [])).
  { rewrite HS. unfold show_item. cbv zeta. destruct (Nat.ltb_spec n (length (keep e))) as [L|L].
    - replace (1023 <? _) with false by (destruct NO; lia).
      exists (strcpy_from (aset (fline f) 0 0) 0 (nth n (keep e) [])). split; [apply seg_strcpy|].
      exists (match nth n (keep e) [] with [] => [] | _ :: _ => [EText (nth n (keep e) [])] end). split; [reflexivity|].
      intros t. destruct (nth n (keep e) []); reflexivity.
    - rewrite nth_overflow by exact L. exists (aset (fline f) 0 0). split; [apply seg_clear|]. exists []. split; [|reflexivity].
      rewrite app_nil_r. reflexivity. }
  destruct EV as (a & Sa & evs & E & PL). rewrite E. cbn [rbind fst snd].
  eexists _, _, _. split; [reflexivity|]. unfold echo_ok. rewrite EK, EB. split.
  - destruct H. constructor; unfold look; cbn [fcook set_line set_hist fline fcur fhist flast fring fesc past place nl input before after text]; try assumption.
    + unfold text. cbn [before after]. rewrite app_nil_r. exact Sa.
    + unfold text. cbn [before after]. rewrite app_nil_r. exact NO.
    + reflexivity.
  - intros t q S. unfold look. unfold text at 2. cbn [before after]. rewrite app_nil_r. rewrite play_app, PL.
    rewrite CC.
    assert (W : shows (play t (wipe (Z.of_nat (length (before e))) (Z.of_nat (length (text e))))) q [] 0).
    { apply wipe_ok; [exact S|]. unfold text. rewrite app_length. lia. }
    set (t1 := play t _) in *. clearbody t1. destruct W as (W1 & W2 & W3).
    destruct (write_over t1 q [] [] (nth n (keep e) [])) as (X1 & X2 & X3).
    + exact W3.
    + cbn [length]. lia.
    + apply no10. apply NO.
    + cbn. lia.
    + cbn [app length] in *. split; [exact W1|]. split; [lia|exact X1].
Qed.
Lemma cook_up f e p ret : Rf f e p ->
  cook_post f e p KUp (let hs := hup (fhist f) (text e) in
    fe <- show_item (set_hist f (fst hs)) (Z.of_nat (length (text e))) (snd hs) ;; Ok (fst fe, ret, snd fe)).
Proof.
  intros H. destruct (keep_eq _ _ _ H) as [K1 K2]. unfold hup. cbv zeta. cbn [fst snd].
  apply (cook_show f e p ret _ (place e - 1)); [exact H|exact K1| |reflexivity|reflexivity].
  cbn [hnr]. rewrite K2. destruct (0 <? Z.of_nat (place e)) eqn:E; lia.
Qed.
Lemma cook_down f e p ret : Rf f e p ->
  cook_post f e p KDown (let hs := hdown (fhist f) (text e) in
    fe <- show_item (set_hist f (fst hs)) (Z.of_nat (length (text e))) (snd hs) ;; Ok (fst fe, ret, snd fe)).
Proof.
  intros H. destruct (keep_eq _ _ _ H) as [K1 K2]. unfold hdown. cbv zeta. cbn [fst snd].
  apply (cook_show f e p ret _ (if (place e <? length (past e))%nat then S (place e) else place e)); [exact H|exact K1| |reflexivity|reflexivity].
  cbn [hnr]. unfold hcount. rewrite K1, K2, keep_len. destruct (Nat.ltb_spec (place e) (length (past e))).
  - replace (_ <? _) with true by lia. lia.
  - replace (_ <? _) with false by lia. lia.
Qed.
Lemma cook_enter f e ret k : Rf f e [] ->
  cook_post f e [] (KEnter k)
   (if negb (flast f =? 0) && negb (flast f =? k) then Ok (set_last f 0, 0, [])
    else
      let f1 := set_last f k in
      let f2 := set_ring f1 (rputs (fring f1) (text e ++ [10])) in
      let f3 := set_hist f2 (henter (fhist f2) (text e)) in
      let f4 := set_line f3 (aset (fline f) 0 0) 0 in
      Ok (set_esc f4 (aset (fesc f4) 0 0), ret, [EText [10]])).
Proof.
  intros H. rewrite (R_nl _ _ _ H). unfold cook_post, echo_ok. cbn [edit base_after].
  destruct (negb (nl e =? 0) && negb (nl e =? k)).
  - eexists _, _, _. split; [reflexivity|]. split; [|intros t q S; exact S].
    destruct H. constructor; cbn [fcook set_last fline fcur fhist flast fring fesc past place nl input before after]; try assumption. reflexivity.
  - cbv zeta. cbn [fring set_last fhist set_ring fesc set_line set_hist].
    eexists _, _, _. split; [reflexivity|]. split.
    + assert (HE : henter (fhist f) (text e) =
        mkHist (match text e with [] => (if (1000 <? length (past e))%nat then tl (past e) else past e)
                | t => (if (1000 <? length (past e))%nat then tl (past e) else past e) ++ [t] end)
               (Z.of_nat (match text e with [] => place e | t =>
                  length ((if (1000 <? length (past e))%nat then tl (past e) else past e) ++ [t]) end))).
      { unfold henter, hcount. rewrite (R_past _ _ _ H), (R_place _ _ _ H).
        replace (1000 <? Z.of_nat (length (past e))) with (1000 <? length (past e))%nat
          by (destruct (Nat.ltb_spec 1000 (length (past e))); lia).
        destruct (text e); reflexivity. }
      assert (PK : Forall okline (if (1000 <? length (past e))%nat then tl (past e) else past e)).
      { pose proof (R_plines _ _ _ H) as Q. destruct (_ <? _)%nat; [|exact Q]. destruct Q; [constructor|assumption]. }
      pose proof (R_text _ _ _ H) as TO. pose proof (R_ring _ _ _ H) as RR. pose proof (R_cook _ _ _ H) as RC.
      constructor; cbn [fcook set_last set_ring set_hist set_line set_esc fline fcur fhist flast fring fesc past place nl input before after text app]; try assumption.
      * cbn [seg]. split; [apply aset_same|exact I].
      * split; [constructor|cbn; lia].
      * reflexivity.
      * rewrite HE. cbn [hitems]. destruct (text e); reflexivity.
      * rewrite HE. cbn [hnr]. destruct (text e); reflexivity.
      * destruct (text e) as [|c t] eqn:ET; [exact PK|]. apply Forall_app. split; [exact PK|]. constructor; [exact TO|constructor].
      * reflexivity.
      * apply ring_puts. exact RR.
      * cbn [seg]. split; [apply aset_same|exact I].
      * constructor.
    + intros t q S. unfold text. cbn [before after app length]. unfold play, put_text. cbn [fold_left show_ev]. unfold put_text. cbn [fold_left].
      unfold put_char. change (10 =? 10) with true. cbv iota. split; [lia|]. split; [cbn; lia|].
      intros i Hi. cbn [cell]. destruct (Z.to_nat i); reflexivity.
Qed.

Lemma chars_line f e p : Rf f e p -> chars_of (fline f) 0 (Z.to_nat (Z.of_nat (length (text e)))) = text e.
Proof. intros H. rewrite Nat2Z.id. apply seg_chars. pose proof (R_line _ _ _ H) as L. apply seg_app in L. apply L. Qed.

(** Every key. *)
Lemma cook_ok f e c k : Rf f e [] -> k <> 0 -> k <= 255 -> (printable k -> c = k) ->
  cook_post f e [] (key_of k) (cook_key f c k).
Proof.
  intros H K0 K1 Kc. unfold cook_key. rewrite (strlen_line _ _ _ H). cbn [rbind]. cbv zeta.
  rewrite (chars_line _ _ _ H). unfold key_of.
  destruct (Z.eqb_spec k 0); [contradiction|].
  destruct (k =? TU_LEFT); [apply cook_left; exact H|].
  destruct (k =? TU_RIGHT); [apply cook_right; exact H|].
  destruct ((k =? TU_HOME) || (k =? 1)); [apply cook_home; exact H|].
  destruct ((k =? TU_END) || (k =? 5)); [apply cook_end; exact H|].
  destruct (k =? TU_UP); [apply cook_up; exact H|].
  destruct (k =? TU_DOWN); [apply cook_down; exact H|].
  destruct ((k =? 10) || (k =? 13)); [apply cook_enter; exact H|].
  destruct ((k =? 127) || (k =? 8)); [apply cook_back; exact H|].
  destruct (k =? TU_DEL); [apply cook_del; exact H|].
  destruct (k =? 11); [apply cook_kill; exact H|].
  destruct (Z.ltb_spec k 0).
  - replace (32 <=? k) with false by lia. cbn [andb]. apply post_same; [exact H|reflexivity|reflexivity].
  - unfold isprint. replace ((-1 <=? k) && (k <=? 255)) with true by lia. cbn [rbind].
    destruct ((32 <=? k) && (k <=? 126)) eqn:P.
    + assert (PR : printable k) by (unfold printable; lia). rewrite (Kc PR). apply cook_char; assumption.
    + apply post_same; [exact H|reflexivity|reflexivity].
Qed.
