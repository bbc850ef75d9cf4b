(** Proofs about console input: sequences of keys, lines, history, raw mode. *)
From Verif Require Import Base FioModel FioSpec FioObs FioProofs FioProofs2 FioProofs3 FioProofs4 FioProofs5.

Lemma process_all_app a : forall f b, process_all f (a ++ b) =
  (r <- process_all f a ;; r2 <- process_all (fst r) b ;; Ok (fst r2, snd r ++ snd r2)).
Proof.
  induction a as [|c a IH]; intros f b.
  - cbn [app process_all rbind fst snd]. destruct (process_all f b) as [[? ?]| |]; reflexivity.
  - cbn [app process_all]. destruct (process f c) as [[[? ?] ?]| |]; cbn [rbind fst snd]; try reflexivity. rewrite IH.
    destruct (process_all f0 a) as [[? ?]| |]; cbn [rbind fst snd]; try reflexivity.
    destruct (process_all f1 b) as [[? ?]| |]; cbn [rbind fst snd]; try reflexivity. rewrite app_assoc. reflexivity.
Qed.

Definition is_enter (k : key) : bool := match k with KEnter _ => true | _ => false end.
Lemma base_other e k p : is_enter k = false -> base_after e k p = p.
Proof. destruct k; cbn; congruence. Qed.
Lemma base_any e k p : base_after e k p = p \/ base_after e k p = 0.
Proof. destruct k; cbn; auto. destruct (_ && _); auto. Qed.

Lemma keys_run ks : forall f e, Rf f e [] -> Forall (fun kb => enc (fst kb) (snd kb)) ks ->
  exists f' evs, process_all f (concat (map snd ks)) = Ok (f', evs) /\ Rf f' (typed e ks) [] /\
    forall t p, shows t p (text e) (Z.of_nat (length (before e))) ->
      exists p', shows (play t evs) p' (text (typed e ks)) (Z.of_nat (length (before (typed e ks)))) /\
        (p' = p \/ p' = 0) /\ (forallb (fun kb => negb (is_enter (fst kb))) ks = true -> p' = p).
Proof.
  induction ks as [|[k bs] ks IH]; intros f e H V.
  - exists f, []. split; [reflexivity|]. split; [exact H|]. intros t p S. exists p. auto.
  - inversion V as [|? ? Va Vl]; subst. cbn [fst snd] in Va. cbn [map concat snd].
    destruct (enc_ok f e k bs H Va) as (f1 & ev1 & E1 & R1 & S1).
    destruct (IH f1 (type_key e (k, bs)) R1 Vl) as (f' & ev2 & E2 & R2 & S2).
    exists f', (ev1 ++ ev2). rewrite process_all_app, E1. cbn [rbind fst snd]. rewrite E2. cbn [rbind fst snd].
    split; [reflexivity|]. split; [exact R2|]. intros t p S. rewrite play_app.
    destruct (S2 _ _ (S1 t p S)) as (p' & S3 & P1 & P2). exists p'. split; [exact S3|].
    cbn [fst] in *. split.
    + destruct (base_any (match snd (k, bs) with 27 :: _ => forget_nl e | _ => e end) k p) as [B|B]; rewrite B in P1; tauto.
    + cbn [forallb fst]. intros A. apply andb_prop in A. destruct A as [A1 A2]. rewrite (P2 A2). apply base_other.
      destruct (is_enter k); [discriminate|reflexivity].
Qed.

Definition chars (l : list Z) : list (key * list Z) := map (fun c => (KChar c, [c])) l.
Lemma chars_bytes l : concat (map snd (chars l)) = l.
Proof. induction l as [|c l IH]; [reflexivity|]. unfold chars in *. cbn [map concat snd app]. rewrite IH. reflexivity. Qed.
Lemma chars_valid l : Forall printable l -> Forall (fun kb => enc (fst kb) (snd kb)) (chars l).
Proof. induction 1; cbn [chars map]; constructor; [cbn; constructor; assumption|assumption]. Qed.
Lemma typed_app e a b : typed e (a ++ b) = typed (typed e a) b.
Proof. unfold typed. apply fold_left_app. Qed.
Lemma type_chars l : forall e, Forall printable l -> after e = [] -> Z.of_nat (length (before e)) + Z.of_nat (length l) <= 1023 ->
  typed e (chars l) = with_line e (before e ++ l) [].
Proof.
  induction l as [|c l IH]; intros e P A L.
  - unfold typed. cbn. rewrite app_nil_r, <- A. symmetry. apply with_same.
  - inversion P; subst. unfold typed, chars in *. cbn [map fold_left]. cbn [length] in L.
    assert (E : type_key e (KChar c, [c]) = with_line e (before e ++ [c]) []).
    { unfold type_key. cbn [fst snd]. replace (match c with 27 => forget_nl e | _ => e end) with e.
      2:{ unfold printable in *. destruct c as [|q|q]; try reflexivity. do 5 (destruct q; try reflexivity). lia. }
      cbn [edit]. unfold text. rewrite A, app_nil_r. replace (_ <? 1023) with true by lia. reflexivity. }
    rewrite E, IH; [|assumption|reflexivity|cbn [with_line before]; rewrite app_length; cbn [length]; lia].
    unfold with_line. cbn [before after past place nl input]. rewrite <- app_assoc. reflexivity.
Qed.

(** A line and its newline. *)
Definition enter_key (n : Z) : key * list Z := (KEnter n, [n]).
Definition newlines : list (list Z) := [[10]; [13]; [13; 10]; [10; 13]].
Definition style_keys (l nls : list Z) : list (key * list Z) := chars l ++ map enter_key nls.
Lemma style_valid l nls : Forall printable l -> In nls newlines -> Forall (fun kb => enc (fst kb) (snd kb)) (style_keys l nls).
Proof.
  intros P I. apply Forall_app. split; [apply chars_valid; exact P|].
  unfold newlines in I. cbn [In] in I. destruct I as [<- | [<- | [<- | [<- | []]]]]; repeat constructor.
Qed.
Lemma style_bytes l nls : concat (map snd (style_keys l nls)) = l ++ nls.
Proof.
  unfold style_keys. rewrite map_app, concat_app, chars_bytes. f_equal.
  induction nls as [|n t IH]; [reflexivity|]. cbn [map concat enter_key snd app]. f_equal. exact IH.
Qed.
Definition waits (e : ed) (nls : list Z) : Prop := nl e = 0 \/ (length nls = 1%nat /\ nl e = hd 0 nls).
Definition pastkeep (e : ed) : list (list Z) := if (1000 <? length (past e))%nat then tl (past e) else past e.
Lemma type_line e l nls : Forall printable l -> Z.of_nat (length l) <= 1023 -> In nls newlines -> text e = [] -> waits e nls ->
  let e' := typed e (style_keys l nls) in
  text e' = [] /\ waits e' nls /\ input e' = qputs (input e) (l ++ [10]) /\
  past e' = match l with [] => pastkeep e | _ => pastkeep e ++ [l] end /\
  place e' = match l with [] => place e | _ => length (pastkeep e ++ [l]) end.
Proof.
  intros P L I T W. cbv zeta. unfold style_keys. rewrite typed_app.
  assert (BA : before e = [] /\ after e = []) by (unfold text in T; apply app_eq_nil in T; exact T). destruct BA as [B A].
  rewrite (type_chars l e P A) by (rewrite B; cbn [length]; lia). rewrite B. cbn [app].
  set (e1 := with_line e l []).
  assert (T1 : text e1 = l) by (unfold e1; rewrite text_with; apply app_nil_r).
  assert (S1 : forall n, (n = 10 \/ n = 13) -> nl e = 0 \/ nl e = n ->
     type_key e1 (enter_key n) = mkEd [] [] (match l with [] => pastkeep e | _ => pastkeep e ++ [l] end)
       (match l with [] => place e | _ => length (pastkeep e ++ [l]) end) n (qputs (input e) (l ++ [10]))).
  { intros n Hn N. unfold type_key, enter_key. cbn [fst snd]. replace (match n with 27 => forget_nl e1 | _ => e1 end) with e1 by (destruct Hn as [-> | ->]; reflexivity).
    cbn [edit]. change (nl e1) with (nl e). replace (negb (nl e =? 0) && negb (nl e =? n)) with false by lia.
    rewrite T1. change (past e1) with (past e). change (place e1) with (place e). change (input e1) with (input e). fold (pastkeep e).
    destruct l; reflexivity. }
  assert (S2 : forall h q n m i, (m = 10 \/ m = 13) -> m <> n -> n <> 0 ->
     type_key (mkEd [] [] h q n i) (enter_key m) = mkEd [] [] h q 0 i).
  { intros h q n m i Hm D N. unfold type_key, enter_key. cbn [fst snd]. replace (match m with 27 => forget_nl (mkEd [] [] h q n i) | _ => mkEd [] [] h q n i end) with (mkEd [] [] h q n i) by (destruct Hm as [-> | ->]; reflexivity).
    cbn [edit nl before after past place input]. replace (negb (n =? 0) && negb (n =? m)) with true by lia. reflexivity. }
  unfold waits in *. unfold newlines in I. cbn [In] in I. destruct I as [<- | [<- | [<- | [<- | []]]]]; unfold typed; cbn [map fold_left length hd] in *.
  - rewrite (S1 10) by lia. cbn [text before after nl input past place app]. unfold text. cbn [before after app]. repeat split; auto.
  - rewrite (S1 13) by lia. unfold text. cbn [text before after nl input past place app]. repeat split; auto.
  - assert (nl e = 0) as N by (destruct W as [W|[W _]]; [exact W|discriminate]).
    rewrite (S1 13) by lia. rewrite S2 by lia. unfold text. cbn [text before after nl input past place app]. repeat split; auto.
  - assert (nl e = 0) as N by (destruct W as [W|[W _]]; [exact W|discriminate]).
    rewrite (S1 10) by lia. rewrite S2 by lia. unfold text. cbn [text before after nl input past place app]. repeat split; auto.
Qed.

Definition lines_keys (ls : list (list Z)) (nls : list Z) : list (key * list Z) := concat (map (fun l => style_keys l nls) ls).
Definition lastn (n : nat) (l : list (list Z)) : list (list Z) := skipn (length l - n) l.
Definition goodline (l : list Z) : Prop := Forall printable l /\ Z.of_nat (length l) <= 1023.
Lemma lines_valid ls nls : Forall goodline ls -> In nls newlines -> Forall (fun kb => enc (fst kb) (snd kb)) (lines_keys ls nls).
Proof.
  intros G I. induction G as [|l ls [P _] G IH]; [constructor|]. unfold lines_keys. cbn [map concat]. apply Forall_app. split; [apply style_valid; assumption|exact IH].
Qed.
Lemma lines_bytes ls nls : concat (map snd (lines_keys ls nls)) = concat (map (fun l => l ++ nls) ls).
Proof.
  induction ls as [|l ls IH]; [reflexivity|]. unfold lines_keys in *. cbn [map concat]. rewrite map_app, concat_app, style_bytes, IH. reflexivity.
Qed.
Lemma type_lines ls nls : forall e, Forall goodline ls -> In nls newlines -> text e = [] -> waits e nls ->
  let e' := typed e (lines_keys ls nls) in
  text e' = [] /\ waits e' nls /\ input e' = qputs (input e) (concat (map (fun l => l ++ [10]) ls)).
Proof.
  induction ls as [|l ls IH]; intros e G I T W; [cbv zeta; auto|]. inversion G as [|? ? [P L] G2]; subst. cbv zeta.
  unfold lines_keys. cbn [map concat]. rewrite typed_app.
  destruct (type_line e l nls P L I T W) as (T1 & W1 & I1 & _). destruct (IH _ G2 I T1 W1) as (T2 & W2 & I2).
  split; [exact T2|]. split; [exact W2|]. fold (lines_keys ls nls). rewrite I2, I1, <- qputs_app. reflexivity.
Qed.
Lemma skipn_app_last {A} n (l : list A) x : (n <= length l)%nat -> skipn n (l ++ [x]) = skipn n l ++ [x].
Proof. intros H. rewrite skipn_app. replace (n - length l)%nat with 0%nat by lia. reflexivity. Qed.
Lemma tl_skipn {A} m : forall l : list A, tl (skipn m l) = skipn (S m) l.
Proof. induction m as [|m IH]; intros [|a l]; try reflexivity. cbn [skipn]. rewrite IH. destruct l; reflexivity. Qed.
Lemma type_hist nls ls : forall e done, Forall goodline ls -> Forall (fun l => l <> []) ls -> In nls newlines -> text e = [] -> waits e nls ->
  past e = lastn 1001 done -> place e = length (past e) ->
  let e' := typed e (lines_keys ls nls) in
  text e' = [] /\ past e' = lastn 1001 (done ++ ls) /\ place e' = length (past e').
Proof.
  induction ls as [|l ls IH]; intros e done G N I T W HP HL; [cbv zeta; rewrite app_nil_r; auto|].
  inversion G as [|? ? [P L] G2]; subst. inversion N as [|? ? Nl N2]; subst. cbv zeta.
  unfold lines_keys. cbn [map concat]. rewrite typed_app. fold (lines_keys ls nls).
  destruct (type_line e l nls P L I T W) as (T1 & W1 & _ & P1 & L1).
  replace (done ++ l :: ls) with ((done ++ [l]) ++ ls) by (rewrite <- app_assoc; reflexivity).
  apply IH; try assumption.
  - rewrite P1. destruct l as [|c l]; [contradiction|]. unfold pastkeep. rewrite HP. unfold lastn.
    rewrite app_length, skipn_length. cbn [length].
    destruct (Nat.ltb_spec 1000 (length done - (length done - 1001))).
    + assert (E : tl (skipn (length done - 1001) done) = skipn (length done - 1000) done).
      { replace (length done - 1000)%nat with (S (length done - 1001))%nat by lia.
        apply tl_skipn. }
      rewrite E. replace (length done + 1 - 1001)%nat with (length done - 1000)%nat by lia. symmetry. apply skipn_app_last. lia.
    + replace (length done + 1 - 1001)%nat with 0%nat by lia. replace (length done - 1001)%nat with 0%nat by lia. reflexivity.
  - rewrite L1, P1. destruct l; [contradiction|]. reflexivity.
Qed.

(** Going up and down in the history without editing. *)
Definition up_key : key * list Z := (KUp, [27; 91; 65]).
Definition down_key : key * list Z := (KDown, [27; 91; 66]).
Lemma upd_nth (l : list (list Z)) n : upd l n (nth n l []) = l.
Proof. revert n. induction l as [|a l IH]; intros [|n]; cbn [upd nth]; try reflexivity. f_equal. apply IH. Qed.
Definition browsing (e : ed) (h : list (list Z)) (n : nat) : Prop :=
  past e = h /\ place e = n /\ text e = nth n h [].
Lemma keep_browse e h n : browsing e h n -> keep e = h.
Proof.
  intros (P & Q & T). unfold keep. rewrite P, Q, T. destruct (_ <? _)%nat; [|reflexivity]. apply upd_nth.
Qed.
Lemma browse_up e h n : browsing e h n -> browsing (type_key e up_key) h (n - 1).
Proof.
  intros B. assert (B' : browsing (forget_nl e) h n) by exact B. pose proof (keep_browse _ _ _ B') as K.
  unfold type_key, up_key. cbn [fst snd edit]. unfold look. destruct B as (P & Q & T).
  unfold browsing. cbn [past place text before after]. change (place (forget_nl e)) with (place e). rewrite K, Q.
  repeat split. unfold text. cbn [before after]. apply app_nil_r.
Qed.
Lemma browse_down e h n : browsing e h n -> (n < length h)%nat -> browsing (type_key e down_key) h (S n).
Proof.
  intros B L. assert (B' : browsing (forget_nl e) h n) by exact B. pose proof (keep_browse _ _ _ B') as K.
  unfold type_key, down_key. cbn [fst snd edit]. unfold look. destruct B as (P & Q & T).
  unfold browsing. cbn [past place text before after]. change (place (forget_nl e)) with (place e). change (past (forget_nl e)) with (past e). rewrite K, Q, P.
  replace (n <? length h)%nat with true by (symmetry; apply Nat.ltb_lt; exact L).
  repeat split. unfold text. cbn [before after]. apply app_nil_r.
Qed.
Lemma browse_ups e h j : forall n, browsing e h n -> browsing (typed e (repeat up_key j)) h (n - j).
Proof.
  revert e. induction j as [|j IH]; intros e n B; [replace (n - 0)%nat with n by lia; exact B|].
  cbn [repeat]. unfold typed. cbn [fold_left]. fold (typed (type_key e up_key) (repeat up_key j)).
  replace (n - S j)%nat with (n - 1 - j)%nat by lia. apply IH. apply browse_up. exact B.
Qed.
Lemma browse_downs e h j : forall n, browsing e h n -> (n + j <= length h)%nat -> browsing (typed e (repeat down_key j)) h (n + j).
Proof.
  revert e. induction j as [|j IH]; intros e n B L; [replace (n + 0)%nat with n by lia; exact B|].
  cbn [repeat]. unfold typed. cbn [fold_left]. fold (typed (type_key e down_key) (repeat down_key j)).
  replace (n + S j)%nat with (S n + j)%nat by lia. apply IH; [|lia]. apply browse_down; [exact B|lia].
Qed.

(* --------------------------------------------------------------- raw mode *)
Lemma raw_byte f b q : fcook f = false -> fpesc f = false -> fptel f = false -> ring_ok (fring f) q ->
  exists f' evs, process f b = Ok (f', snd (qput q (i8 b)), evs) /\ fcook f' = false /\ fpesc f' = false /\ fptel f' = false /\
    ring_ok (fring f') (fst (qput q (i8 b))).
Proof.
  intros A B C R. unfold process, process_raw, raw_put. cbv zeta. rewrite A, B, C. cbn [negb andb].
  destruct (ring_put (fring f) q (i8 b) R) as [R1 R2]. rewrite R2.
  eexists _, _. split; [reflexivity|]. cbn [fcook set_last set_ring fpesc fptel fring]. auto.
Qed.
Lemma raw_bytes bs : forall f q, fcook f = false -> fpesc f = false -> fptel f = false -> ring_ok (fring f) q ->
  exists f' evs, process_all f bs = Ok (f', evs) /\ fcook f' = false /\ fpesc f' = false /\ fptel f' = false /\
    ring_ok (fring f') (qputs q (map i8 bs)).
Proof.
  induction bs as [|b t IH]; intros f q A B C R; [exists f, []; auto|]. cbn [process_all map].
  destruct (raw_byte f b q A B C R) as (f1 & ev & E & A1 & B1 & C1 & R1). rewrite E. cbn [rbind fst snd].
  destruct (IH f1 _ A1 B1 C1 R1) as (f' & ev' & E' & A' & B' & C' & R'). rewrite E'. cbn [rbind fst snd].
  eexists _, _. split; [reflexivity|]. auto.
Qed.
Lemma raw_ok l : forall f q rest, fcook f = false -> fpesc f = false -> fptel f = false -> ring_ok (fring f) q ->
  Forall (fun b => is_u8 b /\ b <> 255) rest -> Forall (fun v => -128 <= v < 128 /\ v <> -1) q ->
  exists f' rest' out q', raw_session f rest l = Ok (f', rest', out) /\ ring_ok (fring f') q' /\
    out ++ q' ++ map i8 rest' = q ++ map i8 rest /\ Forall (fun v => -128 <= v < 128 /\ v <> -1) q'.
Proof.
  induction l as [|a l IH]; intros f q rest A B C R F Q; [exists f, rest, [], q; auto|]. destruct a as [n|n]; cbn [raw_session].
  - set (av := firstn n rest). set (later := skipn n rest).
    assert (Er : rest = av ++ later) by (symmetry; apply firstn_skipn).
    assert (PK : exists f1 rd left, pick f av = Ok (f1, rd, left) /\ fcook f1 = false /\ fpesc f1 = false /\ fptel f1 = false /\
       exists got, av = got ++ left /\ ring_ok (fring f1) (q ++ map i8 got)).
    { unfold pick, pick_room. rewrite (ring_free _ _ R). destruct (Z.ltb_spec (qroom q) 5).
      - exists f, [], av. split; [reflexivity|]. repeat split; try assumption. exists []. split; [reflexivity|]. cbn [map]. rewrite app_nil_r. exact R.
      - set (m := if 101 <? qroom q then 99 else qroom q - 1).
        assert (Hm : 0 <= m < qroom q) by (subst m; destruct (Z.ltb_spec 101 (qroom q)); lia).
        destruct (raw_bytes (firstn (Z.to_nat m) av) f q A B C R) as (f1 & ev & E & A1 & B1 & C1 & R1). rewrite E. cbn [rbind fst snd].
        eexists _, _, _. split; [reflexivity|]. repeat split; try assumption. exists (firstn (Z.to_nat m) av).
        split; [symmetry; apply firstn_skipn|]. rewrite qputs_fit in R1; [exact R1|]. rewrite map_length.
        pose proof (firstn_le_length (Z.to_nat m) av). lia. }
    destruct PK as (f1 & rd & left & E & A1 & B1 & C1 & got & Eg & R1). rewrite E. cbn [rbind fst snd].
    rewrite Er, Eg in F. rewrite !Forall_app in F. destruct F as ((F1 & F2) & F3).
    destruct (IH f1 (q ++ map i8 got) (left ++ later) A1 B1 C1 R1) as (f' & rest' & out & q' & E' & R' & Q' & QF).
    + apply Forall_app. auto.
    + apply Forall_app. split; [exact Q|]. clear - F1. induction F1 as [|b t [Hb Hn] F1 IHb]; cbn [map]; constructor; [|exact IHb].
      unfold i8, u8, is_u8 in *. destruct (b mod 256 <? 128) eqn:Eb; lia.
    + exists f', rest', out, q'. split; [exact E'|]. split; [exact R'|]. split; [|exact QF]. rewrite Q', Er, Eg.
      rewrite !map_app, <- !app_assoc. reflexivity.
  - assert (SQ : Forall (fun v => seen v <> -1) q /\ map seen q = q).
    { clear - Q. induction Q as [|v t [H1 H2] Q [IH1 IH2]]; [split; [constructor|reflexivity]|].
      assert (seen v = v) by (unfold seen; destruct (Z.ltb_spec 0 v); lia). cbn [map]. rewrite H, IH2. split; [|reflexivity]. constructor; [congruence|exact IH1]. }
    destruct SQ as [S1 S2]. destruct (read_loop_ok n (fring f) q R S1) as (r' & b & E & R1).
    assert (Q2 : Forall (fun v => -128 <= v < 128 /\ v <> -1) (firstn n q) /\ Forall (fun v => -128 <= v < 128 /\ v <> -1) (skipn n q))
      by (rewrite <- (firstn_skipn n q) in Q; apply Forall_app in Q; exact Q). destruct Q2 as [Q2 Q3].
    assert (E1 : exists f1, fst (fst (read_dev f false (Z.of_nat n))) = f1 /\ snd (fst (read_dev f false (Z.of_nat n))) = firstn n q /\
       fcook f1 = false /\ fpesc f1 = false /\ fptel f1 = false /\ ring_ok (fring f1) (skipn n q)).
    { unfold read_dev. destruct (Z.eqb_spec (Z.of_nat n) 0) as [Z0|Z0].
      - assert (n = 0%nat) by lia. subst n. exists f. cbn [fst snd firstn skipn]. auto 8.
      - rewrite Nat2Z.id, E. cbn [fst snd]. eexists. split; [reflexivity|]. split; [rewrite <- firstn_map, S2; reflexivity|].
        cbn [fcook set_ring fpesc fptel fring]. auto. }
    destruct E1 as (f1 & Ea & Eb & A1 & B1 & C1 & R2). rewrite Ea, Eb.
    destruct (IH f1 _ rest A1 B1 C1 R2 F Q3) as (f' & rest' & out & q' & E' & R' & Q' & QF). rewrite E'. cbn [rbind fst snd].
    exists f', rest', (firstn n q ++ out), q'. split; [reflexivity|]. split; [exact R'|]. split; [|exact QF].
    rewrite <- app_assoc, Q', app_assoc, firstn_skipn. reflexivity.
Qed.
