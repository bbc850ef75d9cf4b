(** C14: memory search. *)
From Verif Require Import Base SearchModel.

(** Letters compare equal regardless of case if the search is case insensitive. *)
Definition fold_case (cs : bool) (d : Z) : Z :=
  if cs then d else if (97 <=? d) && (d <=? 122) then d - 32 else d.

(** The pattern is found at [a]. *)
Definition occurs (get : Z -> Z) (cs : bool) (pat : list Z) (a : Z) : Prop :=
  forall i d, nth_error pat i = Some d ->
    fold_case cs (get (a + Z.of_nat i)) = fold_case cs d.

(** Values of bytes; the case insensitive search is defined for those only. *)
Definition bytes_only (cs : bool) (get : Z -> Z) (pat : list Z) : Prop :=
  cs = false -> (forall a, 0 <= get a < 256) /\ Forall (fun d => 0 <= d < 256) pat.

Section P.
Variables (get : Z -> Z) (size : Z) (cs : bool).

Lemma same_ok d1 d2 : (cs = false -> 0 <= d1 < 256 /\ 0 <= d2 < 256) ->
  same cs d1 d2 = Ok (fold_case cs d1 =? fold_case cs d2).
Proof.
  intros H. unfold same, fold_case. destruct cs; [reflexivity|]. destruct (H eq_refl) as [H1 H2].
  unfold upper. replace (4294967295 =? d1) with false by lia. replace (4294967295 =? d2) with false by lia.
  replace (255 <? d1) with false by lia. replace (255 <? d2) with false by lia. reflexivity.
Qed.

Lemma match_at_ok pat : bytes_only cs get pat -> forall a, 0 <= a -> a + Z.of_nat (length pat) < 4294967296 ->
  exists b, match_at get cs pat a = Ok b /\ (b = true <-> occurs get cs pat a).
Proof.
  induction pat as [|d pat IH]; intros Hb a Ha Hl; cbn [match_at].
  - exists true. split; [reflexivity|]. split; [|auto]. intros _ i x Hi. destruct i; discriminate.
  - cbn [length] in Hl. rewrite u32_id by lia.
    rewrite same_ok.
    2:{ intros Hc. destruct (Hb Hc) as [A B]. split; [apply A|]. exact (Forall_inv B). }
    cbn [rbind]. destruct (fold_case cs (get a) =? fold_case cs d) eqn:E.
    + destruct (IH) with (a := a + 1) as (b & E1 & E2); [|lia|lia|].
      { intros Hc. destruct (Hb Hc) as [A B]. split; [exact A|]. exact (Forall_inv_tail B). }
      exists b. split; [exact E1|]. rewrite E2. split; intros H.
      * intros [|i] x Hi; cbn [nth_error] in Hi.
        -- replace (a + Z.of_nat 0) with a by lia. assert (d = x) by congruence. subst. lia.
        -- specialize (H i x Hi). replace (a + Z.of_nat (S i)) with (a + 1 + Z.of_nat i) by lia. exact H.
      * intros i x Hi. specialize (H (S i) x Hi). replace (a + 1 + Z.of_nat i) with (a + Z.of_nat (S i)) by lia. exact H.
    + exists false. split; [reflexivity|]. split; [discriminate|]. intros H.
      specialize (H O d eq_refl). replace (a + Z.of_nat 0) with a in H by lia. lia.
Qed.

Lemma search_loop_unfold n pat a : search_loop get size cs n pat a =
  if u32 (a + Z.of_nat (length pat)) <=? size then
    match n with
    | O => UB
    | S k => m <- match_at get cs pat a ;; if m then Ok (true, a) else search_loop get size cs k pat (u32 (a + 1))
    end
  else Ok (false, a).
Proof. destruct n; reflexivity. Qed.

Lemma search_loop_ok pat : bytes_only cs get pat -> 0 <= size -> size + 1 < 4294967296 ->
  forall n a, 0 <= a -> a <= size -> a + Z.of_nat (length pat) < 4294967296 -> size - a < Z.of_nat n ->
  exists b a', search_loop get size cs n pat a = Ok (b, a') /\
    (b = true -> occurs get cs pat a' /\ a <= a' /\ a' + Z.of_nat (length pat) <= size /\
       forall x, a <= x < a' -> ~ occurs get cs pat x) /\
    (b = false -> forall x, a <= x -> x + Z.of_nat (length pat) <= size -> ~ occurs get cs pat x).
Proof.
  intros Hb Hs0 Hs. induction n as [|n IH]; intros a Ha Has Hl Hn; [lia|].
  rewrite search_loop_unfold. rewrite u32_id by lia.
  destruct (a + Z.of_nat (length pat) <=? size) eqn:E.
  - destruct (match_at_ok pat Hb a Ha Hl) as (m & -> & Hm). cbn [rbind]. destruct m.
    + exists true, a. split; [reflexivity|]. split; [|discriminate].
      intros _. split; [apply Hm; reflexivity|]. split; [lia|]. split; [lia|]. intros; lia.
    + assert (Hno : ~ occurs get cs pat a) by (intros X; apply Hm in X; discriminate).
      rewrite u32_id by lia.
      destruct (Z.eq_dec a size) as [->|Hne].
      { (* empty pattern at the end: it occurs, contradiction *)
        exfalso. apply Hno. destruct pat; [|cbn [length] in E; lia]. intros i x Hi. destruct i; discriminate. }
      destruct (Z_lt_dec (a + 1 + Z.of_nat (length pat)) 4294967296) as [Hl2|Hl2]; [|lia].
      destruct (IH (a + 1)) as (b & a' & -> & Ht & Hf); try lia.
      exists b, a'. split; [reflexivity|]. split.
      * intros Hbt. destruct (Ht Hbt) as (P1 & P2 & P3 & P4). split; [exact P1|]. split; [lia|]. split; [lia|].
        intros x Hx. destruct (Z.eq_dec x a) as [->|]; [exact Hno|]. apply P4. lia.
      * intros Hbf x Hx1 Hx2. destruct (Z.eq_dec x a) as [->|]; [exact Hno|]. apply Hf; auto; lia.
  - exists false, a. split; [reflexivity|]. split; [discriminate|]. intros _ x H1 H2. lia.
Qed.

Lemma search_next_ok pat : bytes_only cs get pat -> 0 <= size -> size + 1 < 4294967296 ->
  forall a, 0 <= a -> a + Z.of_nat (length pat) < 4294967296 ->
  exists b a', search_next get size cs pat a = Ok (b, a') /\
    (b = true -> occurs get cs pat a' /\ a <= a' /\ a' + Z.of_nat (length pat) <= size /\
       forall x, a <= x < a' -> ~ occurs get cs pat x) /\
    (b = false -> forall x, a <= x -> x + Z.of_nat (length pat) <= size -> ~ occurs get cs pat x).
Proof.
  intros Hb Hs0 Hs a Ha Hl. unfold search_next. rewrite u32_id by lia.
  destruct (size <? a + Z.of_nat (length pat)) eqn:E.
  - exists false, a. split; [reflexivity|]. split; [discriminate|]. intros; lia.
  - apply search_loop_ok; auto; lia.
Qed.

Lemma where_ok pat : pat <> [] -> bytes_only cs get pat -> 0 <= size -> size + 1 < 4294967296 ->
  forall n a, 0 <= a -> a <= size -> a + Z.of_nat (length pat) < 4294967296 -> size - a + 1 < Z.of_nat n ->
  exists l, where_loop get size cs n pat a = Ok l /\
    (forall x, In x l <-> (a <= x /\ x + Z.of_nat (length pat) <= size /\ occurs get cs pat x)) /\
    (forall i j x y, (i < j)%nat -> nth_error l i = Some x -> nth_error l j = Some y -> x < y).
Proof.
  intros Hp Hb Hs0 Hs. assert (Hlp : 1 <= Z.of_nat (length pat)) by (destruct pat; [congruence|cbn [length]; lia]).
  induction n as [|n IH]; intros a Ha Has Hl Hn; [lia|]. cbn [where_loop].
  destruct (search_next_ok pat Hb Hs0 Hs a Ha Hl) as (b & a' & -> & Ht & Hf). cbn [rbind fst snd].
  destruct b.
  - destruct (Ht eq_refl) as (P1 & P2 & P3 & P4). rewrite u32_id by lia.
    destruct (IH (a' + 1)) as (l & -> & L1 & L2); try lia.
    cbn [rbind]. exists (a' :: l). split; [reflexivity|]. split.
    + intros x. cbn [In]. rewrite L1. split.
      * intros [<-|H]; [auto|]. destruct H as (? & ? & ?). repeat split; auto; lia.
      * intros (Q1 & Q2 & Q3). destruct (Z.eq_dec a' x) as [->|N]; [auto|]. right. repeat split; auto.
        destruct (Z_lt_dec x a'); [|lia]. exfalso. apply (P4 x); auto.
    + intros i j x y Hij Hi Hj. destruct j as [|j]; [lia|]. cbn [nth_error] in Hj. destruct i as [|i]; cbn [nth_error] in Hi.
      * assert (a' = x) by congruence. subst. apply nth_error_In in Hj. apply L1 in Hj. lia.
      * apply (L2 i j); auto. lia.
  - exists []. split; [reflexivity|]. split.
    + intros x. cbn [In]. split; [tauto|]. intros (Q1 & Q2 & Q3). exact (Hf eq_refl x Q1 Q2 Q3).
    + intros i j x y _ Hi. destruct i; discriminate.
Qed.
End P.

(** C14. In a memory which begins at address 0, search_next started at [a] stops
    at the lowest occurrence not below [a], or reports failure when there is
    none. *)
Theorem C14_first_match : forall get size cs pat a,
  bytes_only cs get pat -> 0 <= size -> size + 1 < 2^32 -> 0 <= a -> a + Z.of_nat (length pat) < 2^32 ->
  exists b a', search_next get size cs pat a = Ok (b, a') /\
    (b = true -> occurs get cs pat a' /\ a <= a' /\ a' + Z.of_nat (length pat) <= size /\
       forall x, a <= x < a' -> ~ occurs get cs pat x) /\
    (b = false -> forall x, a <= x -> x + Z.of_nat (length pat) <= size -> ~ occurs get cs pat x).
Proof. intros. change (2^32) with 4294967296 in *. apply search_next_ok; auto. Qed.

(** C14. The commands `where' and `Where' print all occurrences, each once, in
    increasing order. *)
Theorem C14_where_prints_all : forall get size cs pat,
  pat <> [] -> bytes_only cs get pat -> 0 <= size -> size + 1 < 2^32 -> Z.of_nat (length pat) < 2^32 ->
  exists l, where_cmd get size cs pat = Ok l /\
    (forall x, In x l <-> (0 <= x /\ x + Z.of_nat (length pat) <= size /\ occurs get cs pat x)) /\
    (forall i j x y, (i < j)%nat -> nth_error l i = Some x -> nth_error l j = Some y -> x < y).
Proof. intros. change (2^32) with 4294967296 in *. apply where_ok; auto; lia. Qed.

Definition ex_text (a : Z) : Z := nth (Z.to_nat a) [65; 98; 97; 66; 97; 98; 0; 98; 65; 98] 255.
Example C14_example :
  where_cmd ex_text 10 false [97; 98] = Ok [0; 2; 4; 8] /\ where_cmd ex_text 10 true [97; 98] = Ok [4] /\
  search_next ex_text 10 false [97; 98] 5 = Ok (true, 8).
Proof. vm_compute. auto. Qed.

(** Refuted for memories that do not begin at 0: [ex_hi] has 16 cells from
    address 0x100 on (get of other addresses gives 0), the byte 7 is at 0x105
    and is not found, whatever the start is. *)
Definition ex_hi (a : Z) : Z := if a =? 261 then 7 else 0.
Theorem C14_start_address_deviation : forall a, 0 <= a < 2^32 - 1 -> exists a', search_next ex_hi 16 true [7] a = Ok (false, a').
Proof.
  intros a Ha. change (2^32) with 4294967296 in *.
  destruct (search_next_ok ex_hi 16 true [7]) with (a := a) as (b & a' & E & Ht & _); try (cbn; lia).
  { intros H. discriminate. }
  destruct b; [|eauto]. exfalso. destruct (Ht eq_refl) as (Oc & A & B & _). cbn [length] in B.
  specialize (Oc O 7 eq_refl). cbn [fold_case] in Oc. unfold ex_hi in Oc.
  destruct (a' + Z.of_nat 0 =? 261) eqn:E1; lia.
Qed.

(** Refuted for the case insensitive search in memories wider than 8 bits:
    isalpha() gets values out of its domain. *)
Theorem C14_wide_memory_deviation : search_next (fun _ => 4660) 16 false [1] 0 = UB.
Proof. vm_compute. reflexivity. Qed.

(** Refuted for a start at the end of the address range: it goes on at 0 and
    returns an address below the start. *)
Theorem C14_wrap_deviation : search_next (fun a => if a =? 3 then 9 else 0) 16 true [9] 4294967295 = Ok (true, 3).
Proof. vm_compute. reflexivity. Qed.

Print Assumptions C14_first_match.
Print Assumptions C14_where_prints_all.
Print Assumptions C14_start_address_deviation.
Print Assumptions C14_wide_memory_deviation.
Print Assumptions C14_wrap_deviation.
