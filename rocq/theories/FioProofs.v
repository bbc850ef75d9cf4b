(** Proofs about console input: the ring buffer and C strings. *)
From Verif Require Import Base FioModel FioSpec.

(* ------------------------------------------------------------- the ring *)
Definition ring_ok (r : ring) (q : queue) : Prop :=
  0 <= rlu r < 1024 /\ 0 <= rff r < 1024 /\ Z.of_nat (length q) <= 1023 /\
  rff r = (rlu r + Z.of_nat (length q)) mod 1024 /\
  forall n, (n < length q)%nat -> nth n q 0 = rbuf r ((rlu r + Z.of_nat n) mod 1024).

Lemma ring_new g p : ring_ok (mkRing g p 0 0) [].
Proof. unfold ring_ok. cbn. repeat split; try lia. Qed.

Lemma ring_put r q v : ring_ok r q ->
  ring_ok (fst (rput r v)) (fst (qput q v)) /\ snd (rput r v) = snd (qput q v).
Proof.
  intros (H1 & H2 & H3 & H4 & H5). unfold rput, qput, qroom. cbv zeta.
  destruct (Z.eqb_spec ((rff r + 1) mod 1024) (rlu r)) as [E|E].
  - replace (0 <? 1023 - Z.of_nat (length q)) with false by lia. cbn [fst snd].
    split; [|reflexivity]. repeat split; assumption || lia.
  - assert (HL : Z.of_nat (length q) < 1023) by lia.
    replace (0 <? 1023 - Z.of_nat (length q)) with true by lia. cbn [fst snd]. split; [|reflexivity].
    unfold ring_ok. cbn [rlu rff rbuf]. rewrite app_length. cbn [length].
    split; [lia|]. split; [lia|]. split; [lia|]. split; [lia|].
    intros n Hn. unfold aset. destruct (Nat.eq_dec n (length q)) as [->|Hne].
    + rewrite app_nth2, Nat.sub_diag by lia. cbn [nth]. rewrite H4, Z.eqb_refl. reflexivity.
    + rewrite app_nth1 by lia. rewrite H5 by lia.
      destruct (Z.eqb_spec ((rlu r + Z.of_nat n) mod 1024) (rff r)); [lia|reflexivity].
Qed.
Lemma ring_puts vs : forall r q, ring_ok r q -> ring_ok (rputs r vs) (qputs q vs).
Proof.
  induction vs as [|v t IH]; intros r q H; [exact H|]. cbn [rputs]. unfold qputs. cbn [fold_left].
  apply IH. apply ring_put. exact H.
Qed.
Lemma land255 c : Z.land c 255 = c mod 256.
Proof. change 255 with (Z.ones 8). rewrite Z.land_ones by lia. reflexivity. Qed.
Lemma ring_get r q : ring_ok r q ->
  ring_ok (fst (rget r)) (fst (qget q)) /\ snd (rget r) = snd (qget q).
Proof.
  intros (H1 & H2 & H3 & H4 & H5). unfold rget, qget. destruct q as [|v t].
  - cbn [length] in *. replace (rlu r =? rff r) with true by lia. cbn [fst snd].
    split; [|reflexivity]. unfold ring_ok. cbn [length]. repeat split; assumption || lia.
  - cbn [length] in *. replace (rlu r =? rff r) with false by lia. cbv zeta. cbn [fst snd].
    pose proof (H5 0%nat ltac:(lia)) as H0. cbn [nth] in H0.
    replace ((rlu r + Z.of_nat 0) mod 1024) with (rlu r) in H0 by lia. rewrite <- H0. split.
    + unfold ring_ok. cbn [rlu rff rbuf]. split; [lia|]. split; [lia|]. split; [lia|]. split; [lia|].
      intros n Hn. specialize (H5 (S n) ltac:(lia)). cbn [nth] in H5. rewrite H5. f_equal. lia.
    + unfold seen. destruct (0 <? v); [apply land255|reflexivity].
Qed.
Lemma ring_free r q : ring_ok r q -> rfree r = qroom q.
Proof.
  intros (H1 & H2 & H3 & H4 & H5). unfold rfree, qroom. destruct (rlu r <=? rff r) eqn:E; lia.
Qed.
Lemma ring_empty r q : ring_ok r q -> (rlu r = rff r <-> q = []).
Proof.
  intros (H1 & H2 & H3 & H4 & H5). split.
  - intros E. destruct q; [reflexivity|]. cbn [length] in *. lia.
  - intros ->. cbn [length] in *. lia.
Qed.
Lemma qputs_fit q vs : Z.of_nat (length vs) <= qroom q -> qputs q vs = q ++ vs.
Proof.
  revert q. induction vs as [|v t IH]; intros q H; [symmetry; apply app_nil_r|].
  unfold qputs. cbn [fold_left]. fold (qputs (fst (qput q v)) t).
  cbn [length] in H. unfold qroom in *. unfold qput at 1, qroom at 1.
  replace (0 <? 1023 - Z.of_nat (length q)) with true by lia. cbn [fst].
  rewrite IH; [rewrite <- app_assoc; reflexivity|]. unfold qroom. rewrite app_length. cbn [length]. lia.
Qed.
Lemma qputs_full q vs : qroom q <= 0 -> qputs q vs = q.
Proof.
  revert q. induction vs as [|v t IH]; intros q H; [reflexivity|].
  unfold qputs. cbn [fold_left]. fold (qputs (fst (qput q v)) t). unfold qput at 1.
  replace (0 <? qroom q) with false by lia. cbn [fst]. apply IH. exact H.
Qed.
Lemma qputs_app q a b : qputs q (a ++ b) = qputs (qputs q a) b.
Proof. unfold qputs. apply fold_left_app. Qed.
Lemma qputs_all q vs : 0 <= qroom q -> qputs q vs = q ++ firstn (Z.to_nat (qroom q)) vs.
Proof.
  intros H. destruct (Z.le_gt_cases (Z.of_nat (length vs)) (qroom q)) as [Hl|Hl].
  - rewrite qputs_fit by lia. rewrite firstn_all2 by lia. reflexivity.
  - rewrite <- (firstn_skipn (Z.to_nat (qroom q)) vs) at 1. rewrite qputs_app.
    assert (HL : length (firstn (Z.to_nat (qroom q)) vs) = Z.to_nat (qroom q)) by (apply firstn_length_le; lia).
    rewrite (qputs_fit q) by lia. apply qputs_full. unfold qroom in *. rewrite app_length. lia.
Qed.

(* ------------------------------------------------------- pieces of arrays *)
Fixpoint seg (a : arr) (i : Z) (s : list Z) : Prop :=
  match s with [] => True | c :: t => a i = c /\ seg a (i + 1) t end.

Lemma seg_app a s t : forall i, seg a i (s ++ t) <-> seg a i s /\ seg a (i + Z.of_nat (length s)) t.
Proof.
  induction s as [|c s IH]; intros i.
  - cbn [app seg length]. replace (i + Z.of_nat 0) with i by lia. tauto.
  - cbn [app seg length]. rewrite IH. replace (i + Z.of_nat (S (length s))) with (i + 1 + Z.of_nat (length s)) by lia. tauto.
Qed.
Lemma seg_ext a b s : forall i, (forall j, i <= j < i + Z.of_nat (length s) -> a j = b j) -> seg a i s -> seg b i s.
Proof.
  induction s as [|c s IH]; intros i H; [trivial|]. cbn [seg length] in *. intros [H1 H2].
  split; [rewrite <- H by lia; exact H1|]. apply IH; [|exact H2]. intros j Hj. apply H. lia.
Qed.
Lemma seg_aset_out a i s j v : (j < i \/ i + Z.of_nat (length s) <= j) -> seg a i s -> seg (aset a j v) i s.
Proof.
  intros H. apply seg_ext. intros k Hk. unfold aset. destruct (Z.eqb_spec k j); [lia|reflexivity].
Qed.
Lemma seg_chars a s : forall i, seg a i s -> chars_of a i (length s) = s.
Proof. induction s as [|c s IH]; intros i; [reflexivity|]. cbn [seg length chars_of]. intros [-> H]. f_equal. apply IH. exact H. Qed.
Lemma aset_same a i v : aset a i v i = v.
Proof. unfold aset. rewrite Z.eqb_refl. reflexivity. Qed.
Lemma aset_other a i v j : j <> i -> aset a i v j = a j.
Proof. unfold aset. intros. destruct (Z.eqb_spec j i); [contradiction|reflexivity]. Qed.

Definition nz (s : list Z) : Prop := Forall (fun c => c <> 0) s.

Lemma seg_strlen a s : forall f i, seg a i (s ++ [0]) -> nz s -> (length s < f)%nat ->
  strlen_from f a i = Ok (i + Z.of_nat (length s)).
Proof.
  induction s as [|c s IH]; intros f i H N L; (destruct f as [|f]; [cbn in L; lia|]); cbn [app seg] in H; cbn [strlen_from].
  - destruct H as [-> _]. rewrite Z.eqb_refl. cbn [length]. f_equal. lia.
  - destruct H as [-> H]. inversion N; subst. destruct (Z.eqb_spec c 0); [contradiction|].
    rewrite IH; [|assumption|assumption|cbn [length] in L; lia]. cbn [length]. f_equal. lia.
Qed.
Lemma seg_strcpy s : forall a i, seg (strcpy_from a i s) i (s ++ [0]) /\ forall j, j < i -> strcpy_from a i s j = a j.
Proof.
  induction s as [|c s IH]; intros a i; cbn [strcpy_from app seg].
  - split; [split; [apply aset_same|exact I]|]. intros j H. apply aset_other. lia.
  - destruct (IH (aset a i c) (i + 1)) as [H1 H2]. split.
    + split; [|exact H1]. rewrite H2 by lia. apply aset_same.
    + intros j H. rewrite H2 by lia. apply aset_other. lia.
Qed.
Lemma awr_in sz a i v : 0 <= i < sz -> awr sz a i v = Ok (aset a i v).
Proof. intros. unfold awr. replace ((0 <=? i) && (i <? sz)) with true by lia. reflexivity. Qed.
Lemma ard_in sz a i : 0 <= i < sz -> ard sz a i = Ok (a i).
Proof. intros. unfold ard. replace ((0 <=? i) && (i <? sz)) with true by lia. reflexivity. Qed.

Lemma shift_left_ok t : forall f a i, seg a i (t ++ [0]) -> nz t -> 1 <= i -> i + Z.of_nat (length t) < 1024 ->
  (length t < f)%nat ->
  exists a', shift_left f a i = Ok a' /\ seg a' (i - 1) t /\
    forall j, (j < i - 1 \/ i - 1 + Z.of_nat (length t) <= j) -> a' j = a j.
Proof.
  induction t as [|c t IH]; intros f a i H N Hi Hl Hf; (destruct f as [|f]; [cbn in Hf; lia|]);
    cbn [app seg length] in *; cbn [shift_left]; rewrite ard_in by lia; cbn [rbind].
  - destruct H as [-> _]. rewrite Z.eqb_refl. exists a. split; [reflexivity|]. split; [exact I|]. reflexivity.
  - destruct H as [-> H]. inversion N; subst. destruct (Z.eqb_spec c 0); [contradiction|].
    rewrite awr_in by lia. cbn [rbind].
    destruct (IH f (aset a (i - 1) c) (i + 1)) as (a' & E & S1 & S2); try assumption; try lia.
    { apply seg_aset_out; [lia|assumption]. }
    exists a'. split; [exact E|]. split.
    + split; [rewrite S2 by lia; apply aset_same|]. replace (i - 1 + 1) with (i + 1 - 1) by lia. exact S1.
    + intros j Hj. rewrite S2 by lia. apply aset_other. lia.
Qed.
Lemma shift_right_ok s : forall a i, seg a i s -> 0 <= i -> i + Z.of_nat (length s) < 1024 ->
  exists a', shift_right (length s) a (i + Z.of_nat (length s) - 1) = Ok a' /\ seg a' (i + 1) s /\
    forall j, (j < i + 1 \/ i + 1 + Z.of_nat (length s) <= j) -> a' j = a j.
Proof.
  induction s as [|c s IH] using rev_ind; intros a i H Hi Hl.
  - exists a. split; [reflexivity|]. split; [exact I|reflexivity].
  - rewrite app_length in *. cbn [length] in *. rewrite Nat.add_1_r in *. cbn [shift_right].
    apply seg_app in H. destruct H as [H1 H2]. cbn [seg] in H2. destruct H2 as [H2 _].
    replace (i + Z.of_nat (S (length s)) - 1) with (i + Z.of_nat (length s)) by lia.
    rewrite ard_in by lia. cbn [rbind]. rewrite H2. rewrite awr_in by lia. cbn [rbind].
    destruct (IH (aset a (i + Z.of_nat (length s) + 1) c) i) as (a' & E & S1 & S2); try lia.
    { apply seg_aset_out; [lia|assumption]. }
    exists a'. split; [exact E|]. split.
    + apply seg_app. split; [exact S1|]. cbn [seg]. split; [|exact I].
      rewrite S2 by lia. replace (i + 1 + Z.of_nat (length s)) with (i + Z.of_nat (length s) + 1) by lia. apply aset_same.
    + intros j Hj. rewrite S2 by lia. apply aset_other. lia.
Qed.
