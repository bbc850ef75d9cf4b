(** Proofs about the symbol table. *)
From Coq Require Import Permutation.
From Verif Require Import Base ListModel ListSpec ListProofs SortedModel SortedSpec SortedProofs VarModel VarSpec.

(** -- strcmp on keys -- *)
Lemma strcmp_val a b : strcmp a b = -1 \/ strcmp a b = 0 \/ strcmp a b = 1.
Proof. revert b; induction a as [|x a IH]; intros [|y b]; cbn; auto. destruct (x <? y); auto. destruct (y <? x); auto. Qed.
Lemma strcmp_eq a b : strcmp a b = 0 <-> a = b.
Proof.
  revert b; induction a as [|x a IH]; intros [|y b]; cbn; try (split; [lia|discriminate]); [tauto|].
  destruct (x <? y) eqn:E1; [split; [lia|intros H; injection H; lia]|].
  destruct (y <? x) eqn:E2; [split; [lia|intros H; injection H; lia]|].
  assert (x = y) by lia. subst. rewrite IH. split; [congruence|intros H; injection H; auto].
Qed.
Lemma strcmp_refl a : strcmp a a = 0. Proof. apply strcmp_eq. reflexivity. Qed.
Lemma strcmp_app p q n m : length p = length q ->
  strcmp (p ++ n) (q ++ m) = if strcmp p q =? 0 then strcmp n m else strcmp p q.
Proof.
  revert q; induction p as [|x p IH]; intros [|y q] H; try discriminate; cbn; auto.
  destruct (x <? y); [reflexivity|]. destruct (y <? x); [reflexivity|]. apply IH. injection H. auto.
Qed.
Lemma sgn_strcmp a b : Z.sgn (strcmp a b) = strcmp a b.
Proof. destruct (strcmp_val a b) as [-> | [-> | ->]]; reflexivity. Qed.

(** place key: memory, address, bits (whole cell first, then high bit descending,
    low bit ascending) *)
Definition pkey (u a h l : Z) : list Z :=
  [u; a; if h <? 0 then 0 else 1; if h <? 0 then 0 else - h; if l <? 0 then 0 else 1; if l <? 0 then 0 else l].
Definition vu (v : var) : Z := match vmem v with Some u => u | None => -1 end.
Definition vpkey (v : var) : list Z := pkey (vu v) (vaddr v) (vbh v) (vbl v).
Definition vkey (v : var) : list Z := vpkey v ++ vname v.
Definition icmp (a b : var) : Z := strcmp (vkey a) (vkey b).
Lemma icmp_preorder : preorder icmp.
Proof.
  destruct strcmp_preorder as [A T]. split; unfold icmp; intros; [apply A|eapply T; eauto].
Qed.

Definition wf_place (u a h l : Z) : Prop :=
  0 <= u < 1000000 /\ 0 <= a < 2147483648 /\ -1 <= l /\ l <= h /\ h < 64.
Definition wfm (v : var) : Prop := is_mem_var v = true /\ wf_place (vu v) (vaddr v) (vbh v) (vbl v).
Lemma wf_wfm v : wf_var v -> is_mem_var v = true -> wfm v.
Proof. unfold wf_var, wfm, is_mem_var, wf_place, vu. destruct (vmem v); [|discriminate]. intros; intuition lia. Qed.

Lemma i32_small x : -2147483648 <= x < 2147483648 -> i32 x = x.
Proof. intros H. unfold i32, u32. destruct (_ <? 2147483648) eqn:E; lia. Qed.
Lemma i32_u32 x : -2147483648 <= x < 2147483648 -> i32 (u32 x) = x.
Proof. intros H. unfold i32, u32. rewrite Zmod_mod. destruct (_ <? 2147483648) eqn:E; lia. Qed.

Lemma cmp_bits_sgn v u a h l : wfm v -> wf_place u a h l ->
  Z.sgn (cmp_bits v u a h l) = strcmp (vpkey v) (pkey u a h l).
Proof.
  intros [Hm W] W'. unfold is_mem_var in Hm. unfold cmp_bits, vpkey, pkey, vu in *.
  destruct (vmem v) as [u0|]; [|discriminate]. unfold wf_place in *.
  rewrite (i32_small (u0 - u)) by lia. rewrite (i32_u32 (vaddr v - a)) by lia.
  unfold cmp_high, cmp_low. cbn [strcmp].
  destruct (u0 - u =? 0) eqn:E1; cbn [negb].
  2: { destruct (u0 <? u) eqn:L1; [lia|]. destruct (u <? u0) eqn:L2; lia. }
  replace (u0 <? u) with false by lia. replace (u <? u0) with false by lia.
  destruct (vaddr v - a =? 0) eqn:E2; cbn [negb].
  2: { destruct (vaddr v <? a) eqn:L1; [lia|]. destruct (a <? vaddr v) eqn:L2; lia. }
  replace (vaddr v <? a) with false by lia. replace (a <? vaddr v) with false by lia.
  destruct (vbh v <? 0) eqn:H1; destruct (h <? 0) eqn:H2; cbn [Z.ltb Z.eqb Z.compare negb Pos.compare Pos.compare_cont Z.sgn];
    try reflexivity.
  - destruct (vbl v <? 0) eqn:L1; destruct (l <? 0) eqn:L2; try reflexivity; lia.
  - destruct (h - vbh v =? 0) eqn:E3; cbn [negb].
    + replace (- vbh v <? - h) with false by lia. replace (- h <? - vbh v) with false by lia.
      destruct (vbl v <? 0) eqn:L1; destruct (l <? 0) eqn:L2; cbn [Z.ltb Z.compare Pos.compare Pos.compare_cont Z.sgn]; try reflexivity.
      destruct (vbl v <? l) eqn:L3; [lia|]. destruct (l <? vbl v) eqn:L4; lia.
    + destruct (- vbh v <? - h) eqn:L3; [lia|]. destruct (- h <? - vbh v) eqn:L4; lia.
Qed.
Lemma cmp_addr_sgn v u a : wfm v -> 0 <= u < 1000000 -> 0 <= a < 2147483648 ->
  Z.sgn (cmp_addr v u a) = strcmp [vu v; vaddr v] [u; a].
Proof.
  intros [Hm W] Hu Ha. unfold is_mem_var in Hm. unfold cmp_addr, vu in *. destruct (vmem v) as [u0|]; [|discriminate].
  unfold wf_place in W. rewrite (i32_small (u0 - u)) by lia. rewrite (i32_u32 (vaddr v - a)) by lia.
  cbn [strcmp]. destruct (u0 - u =? 0) eqn:E1.
  - replace (u0 <? u) with false by lia. replace (u <? u0) with false by lia.
    destruct (vaddr v <? a) eqn:L1; [lia|]. destruct (a <? vaddr v) eqn:L2; lia.
  - destruct (u0 <? u) eqn:L1; [lia|]. destruct (u <? u0) eqn:L2; lia.
Qed.
Lemma cmp_var_sgn a b : wfm a -> wfm b -> Z.sgn (cmp_var a b) = icmp a b.
Proof.
  intros Wa [Hm Wb]. unfold cmp_var, icmp, vkey. pose proof (cmp_bits_sgn a _ _ _ _ Wa Wb) as H.
  assert (E : vmem b = Some (vu b)) by (unfold is_mem_var, vu in *; destruct (vmem b); [reflexivity|discriminate]).
  rewrite E. rewrite strcmp_app by reflexivity. fold (vpkey b) in H.
  destruct (cmp_bits a (vu b) (vaddr b) (vbh b) (vbl b) =? 0) eqn:E0.
  - rewrite <- H, sgn_strcmp. replace (cmp_bits a (vu b) (vaddr b) (vbh b) (vbl b)) with 0 by lia. reflexivity.
  - rewrite <- H. destruct (Z.sgn _ =? 0) eqn:E1; [|reflexivity]. lia.
Qed.

Lemma pkey_inj u a h l u' a' h' l' : -1 <= l <= h -> -1 <= l' <= h' ->
  pkey u a h l = pkey u' a' h' l' -> u = u' /\ a = a' /\ h = h' /\ l = l'.
Proof.
  unfold pkey. intros H H' E. injection E as E1 E2 E3 E4 E5 E6. repeat split; auto.
  - destruct (h <? 0) eqn:A; destruct (h' <? 0) eqn:B; lia.
  - destruct (l <? 0) eqn:A; destruct (l' <? 0) eqn:B; lia.
Qed.
Lemma same_place_spec v w : wfm v -> wfm w -> same_place v w = true <-> vpkey v = vpkey w.
Proof.
  intros [Hv Wv] [Hw Ww]. unfold same_place, vpkey. unfold is_mem_var in *. unfold vu in *.
  destruct (vmem v) as [a|]; [|discriminate]. destruct (vmem w) as [b|]; [|discriminate]. unfold wf_place in *.
  split.
  - intros H. assert (a = b /\ vaddr v = vaddr w /\ vbh v = vbh w /\ vbl v = vbl w) as (-> & -> & -> & ->) by lia. reflexivity.
  - intros H. apply pkey_inj in H; [|lia|lia]. lia.
Qed.

(** -- the searches of the address list -- *)
Definition nneg (f : var -> Z) (s : list var) : nat := length (filter (fun v => f v <? 0) s).
Definition has0 (f : var -> Z) (s : list var) : bool := existsb (fun v => f v =? 0) s.
Definition mono (f : var -> Z) (s : list var) : Prop :=
  forall i j x y, (i < j)%nat -> nth_error s i = Some x -> nth_error s j = Some y -> Z.sgn (f x) <= Z.sgn (f y).

Lemma nneg_split f s n : (n <= length s)%nat ->
  (forall i x, (i < n)%nat -> nth_error s i = Some x -> f x < 0) ->
  (forall i x, (n <= i)%nat -> nth_error s i = Some x -> 0 <= f x) -> nneg f s = n.
Proof.
  revert n; induction s as [|y s IH]; intros n Hn Hl Hg; unfold nneg; cbn [filter].
  - cbn in *. lia.
  - destruct n as [|n].
    + pose proof (Hg O y (le_n _) eq_refl). replace (f y <? 0) with false by lia.
      apply (IH O); [lia|intros; lia|]. intros i x Hi Hx. apply (Hg (S i) x); [lia|exact Hx].
    + pose proof (Hl O y ltac:(lia) eq_refl). replace (f y <? 0) with true by lia. cbn [length]. f_equal.
      apply IH; [cbn in Hn; lia| |].
      * intros i x Hi Hx. apply (Hl (S i) x); [lia|exact Hx].
      * intros i x Hi Hx. apply (Hg (S i) x); [lia|exact Hx].
Qed.
Lemma has0_iff f s : has0 f s = true <-> exists i x, nth_error s i = Some x /\ f x = 0.
Proof.
  unfold has0. rewrite existsb_exists. split.
  - intros (x & Hx & E). apply In_nth_error in Hx. destruct Hx as (i & Hi). exists i, x. split; [auto|lia].
  - intros (i & x & Hi & E). exists x. split; [eapply nth_error_In; eauto|lia].
Qed.

Lemma walk_down_ok f lst s : repr var lst s -> mono f s ->
  forall fuel l x, (l <= length s)%nat -> (l <= fuel)%nat -> nth_error s l = Some x -> f x = 0 ->
  exists p, walk_down fuel f lst (Z.of_nat l) = Ok (Z.of_nat p) /\ (p <= l)%nat /\
    (forall i y, (i < p)%nat -> nth_error s i = Some y -> f y < 0) /\
    (forall i y, (p <= i < l)%nat -> nth_error s i = Some y -> f y = 0).
Proof.
  intros Rp Hm. induction fuel as [|k IH]; intros l x Hl Hf Hx Hz.
  - assert (l = O) by lia. subst. exists O. cbn. repeat split; auto; intros; lia.
  - destruct l as [|l].
    + exists O. cbn. repeat split; auto; intros; lia.
    + cbn [walk_down]. replace (0 <? Z.of_nat (S l)) with true by lia.
      pose proof Rp as (Hc & _).
      destruct (get_slot_ok var same_ptr lst s (Z.of_nat (S l) - 1) Rp ltac:(lia)) as (y & Ey & Eg).
      rewrite Eg. cbn [rbind]. replace (Z.to_nat (Z.of_nat (S l) - 1)) with l in Ey by lia.
      pose proof (Hm l (S l) y x ltac:(lia) Ey Hx) as M.
      destruct (f y =? 0) eqn:E.
      * replace (Z.of_nat (S l) - 1) with (Z.of_nat l) by lia.
        destruct (IH l y ltac:(lia) ltac:(lia) Ey ltac:(lia)) as (p & P1 & P2 & P3 & P4).
        exists p. rewrite P1. repeat split; auto. intros i z Hi Hz'.
        destruct (Nat.eq_dec i l) as [->|]; [|apply (P4 i z); auto; lia]. rewrite Hz' in Ey. injection Ey as ->. lia.
      * exists (S l). repeat split; auto; [|intros; lia].
        intros i z Hi Hz'. destruct (Nat.eq_dec i l) as [->|].
        -- rewrite Hz' in Ey. injection Ey as ->. lia.
        -- pose proof (Hm i l z y ltac:(lia) Hz' Ey). lia.
Qed.

Lemma asearch_loop_ok f lst s : repr var lst s -> mono f s ->
  forall fuel l h r, 0 <= l -> l <= h + 1 -> h < Z.of_nat (length s) -> h + 1 - l <= Z.of_nat fuel ->
  (forall i x, Z.of_nat i < l -> nth_error s i = Some x -> f x < 0) ->
  (forall i x, h < Z.of_nat i -> nth_error s i = Some x -> 0 <= f x) ->
  (r = true <-> exists i x, h < Z.of_nat i /\ nth_error s i = Some x /\ f x = 0) ->
  asearch_loop fuel f lst l h r = Ok (has0 f s, Z.of_nat (nneg f s)).
Proof.
  intros Rp Hm. pose proof Rp as (Hc & _).
  assert (Fin : forall l h r, 0 <= l -> l = h + 1 -> h < Z.of_nat (length s) ->
    (forall i x, Z.of_nat i < l -> nth_error s i = Some x -> f x < 0) ->
    (forall i x, h < Z.of_nat i -> nth_error s i = Some x -> 0 <= f x) ->
    (r = true <-> exists i x, h < Z.of_nat i /\ nth_error s i = Some x /\ f x = 0) ->
    Ok (r, l) = Ok (has0 f s, Z.of_nat (nneg f s))).
  { intros l h r H0 E Hh Hlt Hge Hr.
    assert (Er : r = has0 f s).
    { apply eq_true_iff_eq. rewrite Hr, has0_iff. split.
      - intros (i & x & _ & A & B). eauto.
      - intros (i & x & A & B). exists i, x. split; [|auto].
        destruct (Z_lt_le_dec h (Z.of_nat i)); auto. pose proof (Hlt i x ltac:(lia) A). lia. }
    assert (En : nneg f s = Z.to_nat l).
    { apply nneg_split; [lia| |].
      - intros i x Hi. apply Hlt. lia.
      - intros i x Hi. apply Hge. lia. }
    rewrite Er, En. repeat f_equal. lia. }
  induction fuel as [|k IH]; intros l h r H0 Hlh Hh Hfu Hlt Hge Hr; unfold asearch_loop; fold asearch_loop.
  - replace (l <=? h) with false by lia. apply (Fin l h r); auto. lia.
  - destruct (l <=? h) eqn:E; [|apply (Fin l h r); auto; lia].
    rewrite Z.shiftr_div_pow2 by lia. change (2 ^ 1) with 2. set (i := (l + h) / 2).
    assert (Hi : l <= i <= h) by (unfold i; lia).
    destruct (get_slot_ok var same_ptr lst s i Rp ltac:(lia)) as (x & Ex & Eg). rewrite Eg. cbn [rbind].
    clearbody i. destruct (f x <? 0) eqn:C1; [|destruct (f x =? 0) eqn:C2].
    + apply IH; auto; try lia.
      intros j y Hj Hy. destruct (Nat.eq_dec j (Z.to_nat i)) as [->|].
      * rewrite Hy in Ex. injection Ex as ->. lia.
      * pose proof (Hm j (Z.to_nat i) y x ltac:(lia) Hy Ex). lia.
    + destruct (walk_down_ok f lst s Rp Hm (Z.to_nat (count lst)) (Z.to_nat i) x) as (p & P1 & P2 & P3 & P4); auto; try lia.
      replace (Z.of_nat (Z.to_nat i)) with i in P1 by lia. rewrite P1. cbn [rbind].
      assert (Hp : l <= Z.of_nat p).
      { destruct (Z_lt_le_dec (Z.of_nat p) l) as [L|]; [|lia]. exfalso.
        destruct (nth_error s p) as [y|] eqn:Ey.
        - pose proof (Hlt p y L Ey). pose proof (P4 p y ltac:(lia) Ey). lia.
        - apply nth_error_None in Ey. lia. }
      apply IH; auto; try lia.
      * intros j y Hj Hy. apply (P3 j y); auto. lia.
      * intros j y Hj Hy. destruct (Nat.eq_dec j (Z.to_nat i)) as [->|].
        -- rewrite Hy in Ex. injection Ex as ->. lia.
        -- pose proof (Hm (Z.to_nat i) j x y ltac:(lia) Ex Hy). lia.
      * split; auto. intros _. exists (Z.to_nat i), x. repeat split; auto; lia.
    + apply IH; auto; try lia.
      * intros j y Hj Hy. destruct (Nat.eq_dec j (Z.to_nat i)) as [->|].
        -- rewrite Hy in Ex. injection Ex as ->. lia.
        -- pose proof (Hm (Z.to_nat i) j x y ltac:(lia) Ex Hy). lia.
      * rewrite Hr. split; intros (j & y & A & B & C).
        -- exists j, y. repeat split; auto; lia.
        -- exists j, y. repeat split; auto. destruct (Nat.eq_dec j (Z.to_nat i)) as [->|].
           ++ rewrite B in Ex. injection Ex as ->. lia.
           ++ destruct (Z_lt_le_dec h (Z.of_nat j)); auto. pose proof (Hm (Z.to_nat i) j x y ltac:(lia) Ex B). lia.
Qed.
Lemma asearch_ok f lst s : repr var lst s -> mono f s ->
  asearch f lst = Ok (has0 f s, Z.of_nat (nneg f s)).
Proof.
  intros Rp Hm. pose proof Rp as (Hc & _). unfold asearch. apply asearch_loop_ok; auto; try lia.
  - intros i x Hi Hx. assert (i < length s)%nat by (apply nth_error_Some; congruence). lia.
  - split; [discriminate|]. intros (i & x & Hi & Hx & _). assert (i < length s)%nat by (apply nth_error_Some; congruence). lia.
Qed.

(** element found *)
Lemma nneg_zero f s : mono f s -> has0 f s = true ->
  exists x, nth_error s (nneg f s) = Some x /\ f x = 0.
Proof.
  intros Hm H. apply has0_iff in H. destruct H as (i & x & Hi & Hz).
  revert i x Hi Hz. induction s as [|y s IH]; intros i x Hi Hz; [destruct i; discriminate|].
  unfold nneg. cbn [filter]. destruct (f y <? 0) eqn:E; cbn [length].
  - destruct i as [|i]; [cbn in Hi; injection Hi as ->; lia|]. cbn [nth_error]. apply (IH (fun a b u v Hab => Hm (S a) (S b) u v (proj1 (Nat.succ_lt_mono a b) Hab)) i x Hi Hz).
  - assert (L : nneg f s = O).
    { apply nneg_split; [lia|intros; lia|]. intros j z _ Hj.
      pose proof (Hm O (S j) y z ltac:(lia) eq_refl Hj). lia. }
    unfold nneg in L. rewrite L. cbn [nth_error]. exists y. split; auto.
    destruct i as [|i]; [cbn in Hi; injection Hi as ->; exact Hz|].
    pose proof (Hm O (S i) y x ltac:(lia) eq_refl Hi). lia.
Qed.

(** -- searching only depends on the sign of the comparison -- *)
Lemma search_loop_sgn c1 c2 lst s key : repr var lst s ->
  (forall x, In x s -> Z.sgn (c1 x key) = Z.sgn (c2 x key)) ->
  forall fuel l h r, 0 <= l -> h < Z.of_nat (length s) ->
  search_loop var var (fun v => v) c1 false fuel lst key l h r =
  search_loop var var (fun v => v) c2 false fuel lst key l h r.
Proof.
  intros Rp Hs. pose proof Rp as (Hc & _).
  induction fuel as [|k IH]; intros l h r Hl Hh; cbn [search_loop]; auto.
  destruct (l <=? h) eqn:E; auto. rewrite Z.shiftr_div_pow2 by lia. change (2 ^ 1) with 2.
  set (i := (l + h) / 2). assert (Hi : l <= i <= h) by (unfold i; lia). clearbody i.
  destruct (get_slot_ok var same_ptr lst s i Rp ltac:(lia)) as (x & Ex & Eg). rewrite Eg. cbn [rbind].
  assert (S := Hs x (nth_error_In _ _ Ex)).
  replace (c1 x key <? 0) with (c2 x key <? 0) by lia. replace (c1 x key =? 0) with (c2 x key =? 0) by lia.
  destruct (c2 x key <? 0); [apply IH; lia|]. destruct (c2 x key =? 0); apply IH; lia.
Qed.
Lemma aadd_icmp lst s v : repr var lst s -> Forall wfm s -> wfm v ->
  sadd var var (fun v => v) cmp_var false lst v = sadd var var (fun v => v) icmp false lst v.
Proof.
  intros Rp Hs Hv. unfold sadd, search. pose proof Rp as (Hc & _).
  rewrite (search_loop_sgn cmp_var icmp lst s v Rp); [reflexivity| |lia|lia].
  intros x Hx. rewrite Forall_forall in Hs. rewrite (cmp_var_sgn x v (Hs x Hx) Hv). unfold icmp. symmetry. apply sgn_strcmp.
Qed.

(** -- lists -- *)
Notation nordered := (ordered var (list Z) vname strcmp false).
Notation aordered := (ordered var var (fun v => v) icmp false).

Lemma in_remove_at (s : list var) i v w : NoDup s -> nth_error s i = Some v ->
  In w (remove_at _ s i) <-> In w s /\ w <> v.
Proof.
  revert i; induction s as [|y s IH]; intros i Hn Hi; [destruct i; discriminate|].
  inversion Hn as [|? ? Hy Hn']; subst. destruct i as [|i]; unfold remove_at; cbn [firstn skipn app].
  - cbn in Hi. injection Hi as ->. cbn [In]. split; [|intuition congruence].
    intros H. split; auto. intros ->. auto.
  - cbn in Hi. specialize (IH i Hn' Hi). unfold remove_at in IH. cbn [In]. rewrite IH.
    split; [|tauto]. intros [->|H]; [|tauto]. split; auto. intros ->. apply Hy. eapply nth_error_In; eauto.
Qed.
Lemma remove_at_sorted {Rel : var -> var -> Prop} s i : StronglySorted Rel s -> StronglySorted Rel (remove_at _ s i).
Proof. apply sorted_remove. Qed.
Lemma in_insert_at (s : list var) i v w : In w (insert_at _ s i v) <-> w = v \/ In w s.
Proof.
  unfold insert_at. rewrite in_app_iff. cbn [In]. rewrite <- (firstn_skipn i s) at 3. rewrite in_app_iff. intuition congruence.
Qed.
Lemma sorted_nodup (Rel : var -> var -> Prop) s : (forall x, ~ Rel x x) -> StronglySorted Rel s -> NoDup s.
Proof.
  intros Hi. induction 1 as [|x s Hs IH Hf]; constructor; auto.
  intros Hin. rewrite Forall_forall in Hf. apply (Hi x). apply Hf. exact Hin.
Qed.
Lemma nordered_nodup s : nordered s -> NoDup s.
Proof. apply sorted_nodup. intros x. rewrite strcmp_refl. lia. Qed.
Lemma aordered_nodup s : aordered s -> NoDup s.
Proof. apply sorted_nodup. intros x. unfold icmp. rewrite strcmp_refl. lia. Qed.

Lemma pos_of_in s v : (forall a b, In a s -> In b s -> vid a = vid b -> a = b) -> In v s ->
  exists k, pos_of _ same_ptr s v = Some k /\ nth_error s k = Some v.
Proof.
  induction s as [|y s IH]; intros Hu Hin; [contradiction|]. cbn [pos_of]. unfold same_ptr at 1.
  destruct (vid v =? vid y) eqn:E.
  - exists O. split; auto. cbn. f_equal. apply Hu; [left; auto|exact Hin|lia].
  - destruct Hin as [->|Hin]; [lia|]. destruct (IH (fun a b Ha Hb => Hu a b (or_intror Ha) (or_intror Hb)) Hin) as (k & K1 & K2).
    exists (S k). rewrite K1. auto.
Qed.
Lemma pos_of_notin s v : (forall a, In a s -> vid a <> vid v) -> pos_of _ same_ptr s v = None.
Proof.
  induction s as [|y s IH]; intros Hu; cbn [pos_of]; auto. unfold same_ptr at 1.
  pose proof (Hu y (or_introl eq_refl)). replace (vid v =? vid y) with false by lia.
  rewrite IH; [reflexivity|]. intros a Ha. apply Hu. right. auto.
Qed.

(** disconn of an object that is (is not) in the list *)
Lemma disconn_in lst s v (Rel : var -> var -> Prop) : repr var lst s -> NoDup s -> StronglySorted Rel s ->
  (forall a b, In a s -> In b s -> vid a = vid b -> a = b) -> In v s ->
  exists l' s', disconn _ same_ptr lst v = Ok l' /\ repr var l' s' /\ StronglySorted Rel s' /\
    (forall w, In w s' <-> In w s /\ w <> v).
Proof.
  intros Rp Hn Hs Hu Hin. destruct (pos_of_in s v Hu Hin) as (k & K1 & K2).
  unfold disconn. rewrite (index_of_ok var same_ptr lst s v Rp), K1. cbn [option_map rbind].
  pose proof Rp as (Hc & _). assert (k < length s)%nat by (apply nth_error_Some; congruence).
  destruct (disconn_at_ok var lst s (Z.of_nat k) Rp ltac:(lia)) as (l' & E & R' & _).
  exists l', (remove_at _ s k). rewrite E. rewrite Nat2Z.id in R'. split; [reflexivity|]. split; [exact R'|].
  split; [apply sorted_remove; exact Hs|]. intros w. apply in_remove_at; auto.
Qed.
Lemma disconn_notin lst s v : repr var lst s -> (forall a, In a s -> vid a <> vid v) ->
  disconn _ same_ptr lst v = Ok lst.
Proof.
  intros Rp Hu. unfold disconn. rewrite (index_of_ok var same_ptr lst s v Rp), (pos_of_notin s v Hu). reflexivity.
Qed.

(** element at the insertion point *)
Lemma nless_hit s n : nordered s -> has_key var _ vname strcmp s n = true ->
  exists v, nth_error s (nless var _ vname strcmp s n) = Some v /\ vname v = n.
Proof.
  intros Hs H.
  assert (M : mono (fun v => strcmp (vname v) n) s).
  { intros i j x y Hij Hx Hy. cbn.
    pose proof (ordered_nth var (list Z) same_ptr vname strcmp false s i j x y Hs Hij Hx Hy) as R. cbn in R.
    rewrite !sgn_strcmp. destruct strcmp_preorder as [A T].
    destruct (strcmp_val (vname x) n) as [E|[E|E]]; rewrite E; [destruct (strcmp_val (vname y) n) as [F|[F|F]]; lia| |].
    - assert (vname x = n) by (apply strcmp_eq; auto). subst. apply A in R.
      destruct (strcmp_val (vname y) (vname x)) as [F|[F|F]]; lia.
    - assert (0 < strcmp (vname y) n); [|destruct (strcmp_val (vname y) n) as [F|[F|F]]; lia].
      apply A. assert (strcmp n (vname x) < 0) by (apply A; lia).
      pose proof (T n (vname x) (vname y) ltac:(lia) ltac:(lia)).
      destruct (strcmp_val n (vname y)) as [F|[F|F]]; try lia. exfalso.
      assert (n = vname y) by (apply strcmp_eq; auto). subst. apply A in R. lia. }
  destruct (nneg_zero _ s M) as (v & V1 & V2).
  { unfold has0. exact H. }
  exists v. split; [exact V1|]. apply strcmp_eq. exact V2.
Qed.
Lemma has_key_names s n : has_key var _ vname strcmp s n = true <-> exists v, In v s /\ vname v = n.
Proof.
  unfold has_key. rewrite existsb_exists. split; intros (v & A & B); exists v; split; auto.
  - apply strcmp_eq. lia.
  - subst. rewrite strcmp_refl. reflexivity.
Qed.
Lemma nordered_names s v w : nordered s -> In v s -> In w s -> vname v = vname w -> v = w.
Proof.
  intros Hs Hv Hw E. apply In_nth_error in Hv. apply In_nth_error in Hw. destruct Hv as (i & Hi). destruct Hw as (j & Hj).
  destruct (Nat.lt_trichotomy i j) as [L|[->|L]]; [|congruence|]; exfalso.
  - pose proof (ordered_nth var (list Z) same_ptr vname strcmp false s i j v w Hs L Hi Hj) as R. cbn in R. rewrite E, strcmp_refl in R. lia.
  - pose proof (ordered_nth var (list Z) same_ptr vname strcmp false s j i w v Hs L Hj Hi) as R. cbn in R. rewrite E, strcmp_refl in R. lia.
Qed.
