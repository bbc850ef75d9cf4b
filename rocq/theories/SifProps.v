(** Theorems about the simulator interface. *)
From Verif Require Import Base SifModel SifSpec SifProofs.

Lemma pair_inv (A B : Type) (a c : A) (b d : B) : (a, b) = (c, d) -> a = c /\ b = d.
Proof. intros E. split; congruence. Qed.
Lemma spec_app ver bits l1 l2 x : spec ver bits (l1 ++ l2) x = let '(v, y) := spec ver bits l1 x in let '(w, z) := spec ver bits l2 y in (v ++ w, z).
Proof.
  revert x. induction l1 as [|a l1 IH]; intros x; cbn [app spec]; [destruct (spec ver bits l2 x); reflexivity|].
  destruct (spec1 ver bits a x) as [v y]. rewrite IH. destruct (spec ver bits l1 y) as [w z]. destruct (spec ver bits l2 z). rewrite app_assoc. reflexivity.
Qed.
Definition good (bits : Z) (s : st) : Prop := inv bits s /\ 2 <= bits <= 32.
Lemma history ver bits w d x l : 2 <= bits <= 32 -> 0 <= d < 2 ^ bits -> is_u32 x -> Forall proper l ->
  exists vs s, accesses ver (2 ^ bits - 1) l (st0 w d x) = Ok (vs, s) /\ spec ver bits l (ready w d x) = (vs, seen s).
Proof.
  intros B D X P. destruct (accesses_ok ver bits B l (st0 w d x) (inv0 bits w d x D X) P) as (v & s & A & _ & S). exists v, s. split; [exact A|exact S].
Qed.

(** C137: whatever the program does to the interface's cell and to the configuration, the simulator
    stays defined (no parameter buffer is used after it was freed or freed twice) and the values read
    and all the effects are those of the protocol. *)
Theorem C137_interface_follows_the_protocol : forall ver bits w d x l,
  2 <= bits <= 32 -> 0 <= d < 2 ^ bits -> is_u32 x -> Forall proper l ->
  exists vs s, accesses ver (2 ^ bits - 1) l (st0 w d x) = Ok (vs, s) /\ spec ver bits l (ready w d x) = (vs, seen s).
Proof. exact history. Qed.
Print Assumptions C137_interface_follows_the_protocol.
Example C137_hyp : let l := [Rd; Wr true false 0 95; Rd; Rd; Wr true false 0 73; Wr true false 0 76; Rd; Rd; Rd; CRd (fun _ => 0) 5; Wr true false 0 115; Rd; CRd (fun _ => 0) 5] in
  Forall proper l /\ fst (spec [53] 8 l (ready (mkW [] None None 0 0 0 false true 0) 18 0)) = [237; 33; 160; 2; 4; 4; 0; 115; 110].
Proof. cbv zeta. split; [repeat constructor; unfold is_u32; lia|vm_compute; reflexivity]. Qed.

(** ** Answers *)
Lemma tell_mix ver bits r : forall m x, ph x = Tell r -> r <> [] -> Forall (fun y => y = Rd \/ is_wr y) m -> reads m = length r -> is_rd (List.last m Rd) = true ->
  exists y, spec ver bits m x = (r, y) /\ ph y = Idle /\ aw y = aw x.
Proof.
  intros m. revert r. induction m as [|a m IH]; intros r x P N F R L; [destruct r; [contradiction|discriminate R]|].
  inversion F as [|? ? Fa Fm]; subst. cbn [spec]. destruct Fa as [-> |W].
  - cbn [spec1]. unfold spec_read. rewrite P. destruct r as [|b r]; [contradiction|]. unfold reads in R. cbn [filter is_rd length] in R. injection R as R. fold (reads m) in R.
    destruct r as [|c r].
    + assert (M : m = []).
      { destruct m as [|b1 m]; [reflexivity|exfalso]. assert (X : List.last (Rd :: b1 :: m) Rd = List.last (b1 :: m) Rd) by reflexivity. rewrite X in L.
        assert (I : In (List.last (b1 :: m) Rd) (b1 :: m)) by (clear; revert b1; induction m as [|c m IH]; intros b1; [left; reflexivity|right; apply (IH c)]).
        assert (J : In (List.last (b1 :: m) Rd) (filter is_rd (b1 :: m))) by (apply filter_In; split; assumption).
        unfold reads in R. destruct (filter is_rd (b1 :: m)); [destruct J|discriminate R]. }
      subst m. eexists. split; [reflexivity|]. split; reflexivity.
    + destruct (IH (c :: r) (a_ph (Tell (c :: r)) x)) as (y & S & P1 & W1); [reflexivity|discriminate|exact Fm|exact R| |].
      { destruct m as [|b1 m]; [discriminate R|exact L]. }
      rewrite S. eexists. split; [reflexivity|]. split; [exact P1|]. rewrite W1. reflexivity.
  - destruct a as [|av ae gb v|? ?|? ? ?]; try destruct W. cbn [spec1]. unfold spec_write. rewrite P.
    destruct (IH r (a_last (v mod 2 ^ bits) x)) as (y & S & P1 & W1); [exact P|exact N|exact Fm|exact R| |].
    { destruct m as [|b1 m]; [|exact L]. unfold reads in R. cbn in R. destruct r; [contradiction|discriminate R]. }
    rewrite S. eexists. split; [reflexivity|]. split; [exact P1|]. rewrite W1. reflexivity.
Qed.
Lemma seq_split ver bits w d x l vs s : 2 <= bits <= 32 -> 0 <= d < 2 ^ bits -> is_u32 x -> Forall proper l -> accesses ver (2 ^ bits - 1) l (st0 w d x) = Ok (vs, s) ->
  inv bits s /\ spec ver bits l (ready w d x) = (vs, seen s).
Proof.
  intros B D X P A. destruct (accesses_ok ver bits B l (st0 w d x) (inv0 bits w d x D X) P) as (v & s1 & A1 & I & S). rewrite A in A1. injection A1 as <- <-. split; [exact I|exact S].
Qed.
Lemma call_params ver bits av ae gb c ps : forall got x, ph x = Need c got -> Z.of_nat (length got) + Z.of_nat (length ps) = needs c -> ps <> [] ->
  exists y, spec ver bits (map (Wr av ae gb) ps) x = ([], y) /\ exists lst, y = a_last lst (perform ver av ae gb c (got ++ ps) (a_ph (ph y) x)) /\ ph y = ph (perform ver av ae gb c (got ++ ps) x).
Proof.
  assert (LAST : forall q l x, a_last l (perform ver av ae gb c q x) = perform ver av ae gb c q (a_last l x)).
  { intros q l x. unfold perform. destruct c; cbn [does]; cbv zeta; try reflexivity; cbn [aw a_last].
    destruct (fin (aw x)) as [ [|? ?]|]; destruct av; reflexivity. }
  assert (PHI : forall q p x, perform ver av ae gb c q (a_ph p x) = perform ver av ae gb c q x).
  { intros q p x. unfold perform. destruct c; cbn [does]; cbv zeta; try reflexivity; cbn [aw a_ph].
    destruct (fin (aw x)) as [ [|? ?]|]; destruct av; reflexivity. }
  induction ps as [|v ps IH]; intros got x P N NE; [contradiction|]. cbn [map spec spec1]. unfold spec_write. rewrite P.
  cbn [length] in N. rewrite app_length. cbn [length]. destruct ps as [|v2 ps].
  - cbn [length] in N. replace (Z.of_nat (length got + 1) =? needs c) with true by lia. cbn [map spec]. eexists. split; [reflexivity|]. eexists. split; [|reflexivity].
    rewrite PHI. reflexivity.
  - cbn [length] in N. replace (Z.of_nat (length got + 1) =? needs c) with false by lia.
    destruct (IH (got ++ [v]) (a_last (v mod 2 ^ bits) (a_ph (Need c (got ++ [v])) x))) as (y & S & lst & E & E2); [reflexivity|rewrite app_length; cbn [length]; lia|discriminate|].
    rewrite S. exists y. split; [reflexivity|]. exists lst. rewrite <- app_assoc in E, E2. cbn [app] in E, E2. split.
    + rewrite E at 1. rewrite !PHI. rewrite <- LAST, PHI. destruct (perform ver av ae gb c (got ++ v :: v2 :: ps) x). reflexivity.
    + rewrite E2. rewrite <- LAST, PHI. reflexivity.
Qed.
Lemma is_code_of c : is_code (code c) = Some c. Proof. destruct c; reflexivity. Qed.
Lemma perform_ph ver av ae gb c q p x : perform ver av ae gb c q (a_ph p x) = perform ver av ae gb c q x.
Proof. unfold perform. destruct c; cbn [does]; cbv zeta; try reflexivity; cbn [aw a_ph]. destruct (fin (aw x)) as [ [|? ?]|]; destruct av; reflexivity. Qed.
Lemma a_last2 a b x : a_last a (a_last b x) = a_last a x. Proof. reflexivity. Qed.
Lemma call_ok ver bits av ae gb c ps x : ph x = Idle -> Z.of_nat (length ps) = needs c ->
  exists y lst, spec ver bits (map (Wr av ae gb) (code c :: ps)) x = ([], y) /\ y = a_last lst (perform ver av ae gb c ps x).
Proof.
  intros P N. cbn [map spec spec1]. unfold spec_write. rewrite P, is_code_of. destruct ps as [|v ps].
  - cbn [length] in N. rewrite <- N. cbn [Z.of_nat Z.eqb map spec]. eexists _, _. split; reflexivity.
  - cbn [length] in N. replace (needs c =? 0) with false by lia.
    destruct (call_params ver bits av ae gb c (v :: ps) [] (a_last (code c mod 2 ^ bits) (a_ph (Need c []) x))) as (y & S & lst & E & E2); [reflexivity|cbn [length]; lia|discriminate|].
    rewrite S. exists y. cbn [app] in *. rewrite perform_ph in E. exists lst. split; [reflexivity|]. rewrite E. rewrite <- perform_ph with (p := Need c []).
    unfold perform. destruct c; cbn [does]; cbv zeta; try reflexivity; cbn [aw a_last a_ph].
    destruct (fin (aw x)) as [ [|? ?]|]; destruct av; reflexivity.
Qed.
Lemma accesses_app ver mask l1 l2 s v1 s1 : accesses ver mask l1 s = Ok (v1, s1) -> accesses ver mask (l1 ++ l2) s = rbind (accesses ver mask l2 s1) (fun b => Ok (v1 ++ fst b, snd b)).
Proof.
  revert s v1. induction l1 as [|a l1 IH]; intros s v1 A.
  - injection A as <- <-. cbn [app]. destruct (accesses ver mask l2 s) as [ [? ?]| |]; reflexivity.
  - cbn [app accesses] in *. destruct (access1 ver mask a s) as [ [va sa]| |]; try discriminate A. cbn [rbind fst snd] in *.
    destruct (accesses ver mask l1 sa) as [ [vb sb]| |] eqn:E; try discriminate A. cbn [rbind fst snd] in A. injection A as <- <-.
    rewrite (IH sa vb E). destruct (accesses ver mask l2 sb) as [ [? ?]| |]; try reflexivity. cbn [rbind fst snd]. rewrite app_assoc. reflexivity.
Qed.
(** a call from a reachable idle state *)
Lemma call_then ver bits w d x l vs s l2 : 2 <= bits <= 32 -> 0 <= d < 2 ^ bits -> is_u32 x -> Forall proper l -> accesses ver (2 ^ bits - 1) l (st0 w d x) = Ok (vs, s) -> Forall proper l2 ->
  exists v2 s2, accesses ver (2 ^ bits - 1) l2 s = Ok (v2, s2) /\ spec ver bits l2 (seen s) = (v2, seen s2).
Proof.
  intros B D X P A P2. destruct (seq_split ver bits w d x l vs s B D X P A) as [I _].
  destruct (accesses_ok ver bits B l2 s I P2) as (v2 & s2 & A2 & _ & S2). exists v2, s2. split; assumption.
Qed.

(** C138: a command whose turn it is, with its parameters, is answered by exactly its answer, also if
    the program writes anything in between (another command, a reset of the interface); afterwards the
    interface is idle. *)
Theorem C138_answer_is_told_whole : forall ver bits w d x l vs s av ae gb c ps m ans,
  2 <= bits <= 32 -> 0 <= d < 2 ^ bits -> is_u32 x -> Forall proper l ->
  accesses ver (2 ^ bits - 1) l (st0 w d x) = Ok (vs, s) -> ph (seen s) = Idle ->
  Z.of_nat (length ps) = needs c -> Forall is_u32 ps ->
  ans = snd (does ver av ae gb c ps (seen s)) -> ans <> [] ->
  Forall (fun y => y = Rd \/ is_wr y) m -> reads m = length ans -> is_rd (List.last m Rd) = true ->
  exists s2, accesses ver (2 ^ bits - 1) (map (Wr av ae gb) (code c :: ps) ++ m) s = Ok (ans, s2) /\ ph (seen s2) = Idle /\
  aw (seen s2) = aw (fst (does ver av ae gb c ps (seen s))).
Proof.
  intros ver bits w d x l vs s av ae gb c ps m ans B D X P A ID N PS -> NE F R L.
  assert (PC : is_u32 (code c)) by (destruct c; unfold is_u32; cbn; lia).
  destruct (call_then ver bits w d x l vs s (map (Wr av ae gb) (code c :: ps) ++ m) B D X P A) as (v2 & s2 & A2 & S2).
  { apply Forall_app. split.
    - apply Forall_forall. intros y Y. apply in_map_iff in Y. destruct Y as (v & <- & Y). destruct Y as [<- |Y]; [exact PC|]. rewrite Forall_forall in PS. apply PS, Y.
    - eapply Forall_impl; [|exact F]. intros y [-> |W]; [exact Logic.I|]. destruct y; try destruct W. exact (conj H H0). }
  rewrite spec_app in S2. destruct (call_ok ver bits av ae gb c ps (seen s) ID N) as (y & lst & S & E). rewrite S in S2.
  unfold perform in E. destruct (does ver av ae gb c ps (seen s)) as [z an]. cbn [snd fst] in *.
  destruct (tell_mix ver bits an m y) as (y2 & T1 & T2 & T3); [subst y; destruct an; [contradiction|reflexivity]|exact NE|exact F|exact R|exact L|].
  rewrite T1 in S2. apply pair_inv in S2. destruct S2 as [<- E2]. exists s2. split; [exact A2|]. rewrite <- E2. split; [exact T2|]. rewrite T3. subst y. reflexivity.
Qed.
Print Assumptions C138_answer_is_told_whole.
Example C138_hyp : let s := st0 (mkW [] None None 260 0 0 false true 0) 18 0 in ph (seen s) = Idle /\
  let m := [Wr true false 0 64; Rd; Rd; Wr true false 0 115; Rd; Rd; Rd] in
  snd (does [] true false 0 GetLimit [] (seen s)) = [4; 4; 1; 0; 0] /\ reads m = 5%nat /\ Forall (fun y => y = Rd \/ is_wr y) m.
Proof.
  cbv zeta. split; [reflexivity|]. split; [reflexivity|]. split; [reflexivity|].
  repeat (apply Forall_nil || apply Forall_cons); first [left; reflexivity|right; unfold is_wr, is_u32; lia].
Qed.

(** ** Resynchronisation *)
Definition longest (ver : list Z) : nat := (length ver + 50)%nat.
Definition ranged (ver : list Z) (p : phase) : Prop :=
  match p with Idle => True | Need c got => Z.of_nat (length got) < needs c | Tell r => r <> [] /\ (length r <= longest ver)%nat end.
Lemma text_len l : (length (text l) <= length l + 2)%nat.
Proof. destruct l; cbn [text length]; [lia|]. rewrite app_length. cbn [length]. lia. Qed.
Lemma does_len ver av ae gb c ps x : (length (snd (does ver av ae gb c ps x)) <= longest ver)%nat.
Proof.
  unfold longest. destruct c; cbn [does snd]; cbv zeta; cbn [snd]; try (cbn [length map all]; lia).
  - pose proof (text_len ver). lia.
  - destruct (is_code (nth 0 ps 0)); cbn [length]; lia.
  - destruct (is_code (nth 0 ps 0)) as [a|]; [|cbn [length]; lia]. pose proof (text_len (descr a)). assert (length (descr a) <= 45)%nat by (destruct a; vm_compute; lia). lia.
  - destruct (fin (aw x)) as [ [|? ?]|]; destruct av; cbn [snd length negb]; lia.
  - cbn [bytes_of length]. lia.
Qed.
Lemma perform_ranged ver av ae gb c ps x : ranged ver (ph (perform ver av ae gb c ps x)).
Proof.
  pose proof (does_len ver av ae gb c ps x) as D. unfold perform. destruct (does ver av ae gb c ps x) as [y r]. cbn [snd] in D. cbn [ph a_ph].
  destruct r; [exact Logic.I|]. split; [discriminate|exact D].
Qed.
Lemma spec1_ranged ver bits y x : ranged ver (ph x) -> ranged ver (ph (snd (spec1 ver bits y x))).
Proof.
  intros R. destruct y as [|av ae gb v|cnt a|cnt a v]; cbn [spec1].
  - unfold spec_read. destruct (ph x) as [|c got|r] eqn:P; cbn [snd]; try (rewrite P; exact R).
    destruct r as [|b [|b2 r] ]; cbn [snd]; [rewrite P; exact R|exact Logic.I|]. destruct R as [_ R]. cbn [ph a_ph ranged]. split; [discriminate|cbn [length] in *; lia].
  - cbn [snd]. unfold spec_write. cbn [ph a_last]. destruct (ph x) as [|c got|r] eqn:P.
    + destruct (is_code v) as [c|]; [|rewrite P; exact Logic.I]. destruct (Z.eqb_spec (needs c) 0) as [E|E]; [apply perform_ranged|]. cbn [ph a_ph ranged length]. destruct c; cbn in *; lia.
    + rewrite app_length. cbn [length]. destruct (Z.eqb_spec (Z.of_nat (length got + 1)) (needs c)) as [E|E]; [apply perform_ranged|].
      cbn [ph a_ph ranged] in *. rewrite app_length. cbn [length]. lia.
    + rewrite P. exact R.
  - exact R.
  - cbn [snd]. unfold spec_cwrite. repeat match goal with |- context [match ?a with _ => _ end] => destruct a end; exact R.
Qed.
Lemma spec_ranged ver bits l : forall x, ranged ver (ph x) -> ranged ver (ph (snd (spec ver bits l x))).
Proof.
  induction l as [|y l IH]; intros x R; [exact R|]. cbn [spec]. pose proof (spec1_ranged ver bits y x R) as R1. destruct (spec1 ver bits y x) as [v x1]. cbn [snd] in R1.
  specialize (IH x1 R1). destruct (spec ver bits l x1) as [w x2]. exact IH.
Qed.
Definition calm (p : phase) : Prop := match p with Need _ _ => False | _ => True end.
Lemma zeros ver bits av ae gb n : forall x, ranged ver (ph x) ->
  (match ph x with Need c got => needs c - Z.of_nat (length got) <= Z.of_nat n | _ => True end) ->
  let y := snd (spec ver bits (repeat (Wr av ae gb 0) n) x) in ranged ver (ph y) /\ calm (ph y).
Proof.
  induction n as [|n IH]; intros x R H; cbv zeta.
  - cbn [repeat spec snd]. split; [exact R|]. destruct (ph x) as [|c got|r]; try exact Logic.I. cbn [ranged] in R. lia.
  - cbn [repeat spec]. pose proof (spec1_ranged ver bits (Wr av ae gb 0) x R) as R1. destruct (spec1 ver bits (Wr av ae gb 0) x) as [v x1] eqn:E. cbn [snd] in R1.
    assert (H1 : match ph x1 with Need c got => needs c - Z.of_nat (length got) <= Z.of_nat n | _ => True end).
    { cbn [spec1] in E. injection E as _ <-. unfold spec_write. cbn [ph a_last]. destruct (ph x) as [|c got|r] eqn:P.
      - change (is_code 0) with (@None cmd). cbv iota. rewrite P. exact Logic.I.
      - rewrite app_length. cbn [length]. destruct (Z.eqb_spec (Z.of_nat (length got + 1)) (needs c)) as [E|E].
        + unfold perform. destruct (does ver av ae gb c (got ++ [0]) x) as [z r]. cbn [ph a_ph]. destruct r; exact Logic.I.
        + cbn [ph a_ph]. rewrite app_length. cbn [length]. lia.
      - rewrite P. exact Logic.I. }
    specialize (IH x1 R1 H1). cbv zeta in IH. destruct (spec ver bits (repeat (Wr av ae gb 0) n) x1) as [w x2]. exact IH.
Qed.
Lemma drain ver bits n : forall x, calm (ph x) -> ranged ver (ph x) -> (match ph x with Tell r => (length r <= n)%nat | _ => True end) ->
  ph (snd (spec ver bits (repeat Rd n) x)) = Idle.
Proof.
  induction n as [|n IH]; intros x C R H.
  - cbn [repeat spec snd]. destruct (ph x) as [|c got|r]; [reflexivity|destruct C|]. destruct R as [R _]. destruct r; [contradiction|cbn in H; lia].
  - cbn [repeat spec spec1]. unfold spec_read.
    assert (G : forall x1 v, calm (ph x1) -> ranged ver (ph x1) -> (match ph x1 with Tell r => (length r <= n)%nat | _ => True end) ->
      ph (snd (let '(v0, x0) := ([v], x1) in let '(vs, x2) := spec ver bits (repeat Rd n) x0 in (v0 ++ vs, x2))) = Idle).
    { intros x1 v C1 R1 H1. specialize (IH x1 C1 R1 H1). destruct (spec ver bits (repeat Rd n) x1) as [w x2]. exact IH. }
    destruct (ph x) as [|c got|r] eqn:P; [|destruct C|].
    + apply G; rewrite P; exact Logic.I.
    + destruct R as [R RL]. destruct r as [|b [|b2 r] ]; [contradiction| |]; apply G; cbn [ph a_ph calm ranged]; try exact Logic.I; cbn [length] in *; [split; [discriminate|lia]|lia].
Qed.

(** C139: whatever the program did before, four zeros and then reads bring the interface back: the next
    write is taken as a command. *)
Theorem C139_resynchronisation : forall ver bits w d x l av ae gb n,
  2 <= bits <= 32 -> 0 <= d < 2 ^ bits -> is_u32 x -> Forall proper l -> (length ver + 50 <= n)%nat ->
  exists vs s, accesses ver (2 ^ bits - 1) (l ++ repeat (Wr av ae gb 0) 4 ++ repeat Rd n) (st0 w d x) = Ok (vs, s) /\ ph (seen s) = Idle.
Proof.
  intros ver bits w d x l av ae gb n B D X P N.
  destruct (history ver bits w d x (l ++ repeat (Wr av ae gb 0) 4 ++ repeat Rd n) B D X) as (vs & s & A & S).
  { apply Forall_app. split; [exact P|]. apply Forall_app. split; apply Forall_forall; intros y Y; apply repeat_spec in Y; subst y; [cbn; unfold is_u32; lia|exact Logic.I]. }
  exists vs, s. split; [exact A|]. rewrite spec_app in S. pose proof (spec_ranged ver bits l (ready w d x) Logic.I) as R.
  destruct (spec ver bits l (ready w d x)) as [v1 x1]. cbn [snd] in R. rewrite spec_app in S.
  pose proof (zeros ver bits av ae gb 4 x1 R) as Z4. cbv zeta in Z4. destruct Z4 as [Z1 Z2].
  { destruct (ph x1) as [|c got|r]; try exact Logic.I. destruct c; cbn [needs]; lia. }
  destruct (spec ver bits (repeat (Wr av ae gb 0) 4) x1) as [v2 x2]. cbn [snd] in Z1, Z2.
  pose proof (drain ver bits n x2 Z2 Z1) as DR. destruct (spec ver bits (repeat Rd n) x2) as [v3 x3]. cbn [snd] in DR. apply pair_inv in S. destruct S as [_ E]. rewrite <- E.
  apply DR. destruct (ph x2) as [|c got|r]; try exact Logic.I. destruct Z1 as [_ Z1]. unfold longest in Z1. lia.
Qed.
Print Assumptions C139_resynchronisation.
(** an interface in the middle of setting the limit *)
Example C139_hyp : Forall proper [Wr true false 0 76; Wr true false 0 64] /\
  ph (snd (spec [] 8 [Wr true false 0 76; Wr true false 0 64] (ready (mkW [] None None 0 0 0 false true 0) 18 0))) = Need SetLimit [64].
Proof. split; [repeat constructor; unfold is_u32; lia|reflexivity]. Qed.

(** ** Output *)
Lemma calls1 ver bits av ae gb c (f : Z -> world -> world) (bs : list Z) : needs c = 1 ->
  (forall b x, is_u32 b -> does ver av ae gb c [b] x = (a_w (f b (aw x)) x, [])) ->
  forall x, ph x = Idle -> Forall is_u32 bs ->
  exists lst, spec ver bits (flat_map (call1 av ae gb (code c)) bs) x = ([], a_last lst (a_w (fold_left (fun w b => f b w) bs (aw x)) x)).
Proof.
  intros N DO. induction bs as [|b bs IH]; intros x P F.
  - exists (last x). cbn. destruct x; reflexivity.
  - inversion F as [|? ? F1 F2]; subst. cbn [flat_map]. rewrite spec_app.
    destruct (call_ok ver bits av ae gb c [b] x P) as (y & lst & S & E); [cbn [length]; lia|]. change (call1 av ae gb (code c) b) with (map (Wr av ae gb) [code c; b]). rewrite S.
    unfold perform in E. rewrite DO in E by exact F1. destruct (IH y) as (lst2 & S2); [subst y; reflexivity|exact F2|]. rewrite S2. cbn [app]. exists lst2. subst y. cbn [fold_left].
    f_equal. destruct x. cbn in P. rewrite P. reflexivity.
Qed.
Lemma call1_proper av ae gb c bs : is_u32 c -> Forall is_u32 bs -> Forall proper (flat_map (call1 av ae gb c) bs).
Proof. intros C F. induction F; [constructor|]. cbn [flat_map call1 app]. repeat (constructor; try assumption). Qed.
Lemma fold_print (g : Z -> list Z) bs w : fold_left (fun w b => printed (g b) w) bs w = printed (flat_map g bs) w.
Proof.
  revert w. induction bs as [|b bs IH]; intros w; [unfold printed, w_out; cbn; rewrite app_nil_r; destruct w; reflexivity|].
  cbn [fold_left]. rewrite IH. unfold printed, w_out. cbn. rewrite <- app_assoc. reflexivity.
Qed.
Lemma fold_write bs w f : fout w = Some f -> fold_left (fun w b => written (byte_of b) w) bs w = w_fout (Some (f ++ map byte_of bs)) w.
Proof.
  revert w f. induction bs as [|b bs IH]; intros w f E; [cbn; rewrite app_nil_r, <- E; destruct w; reflexivity|].
  cbn [fold_left map]. rewrite (IH (written (byte_of b) w) (f ++ [byte_of b])); unfold written; rewrite E; [|reflexivity]. unfold w_fout. cbn. rewrite <- app_assoc. reflexivity.
Qed.
Lemma flat_map_sing (f : Z -> Z) l : flat_map (fun b => [f b]) l = map f l. Proof. induction l as [|a l IH]; [reflexivity|]. cbn. rewrite IH. reflexivity. Qed.

(** C140: a program that prints bytes ('p'), prints them in hexadecimal ('x') or writes them to the
    output file ('w') from an idle interface gets exactly those bytes, in order, and nothing else changes. *)
Theorem C140_output_is_exact : forall ver bits w d x l vs s av ae gb bs,
  2 <= bits <= 32 -> 0 <= d < 2 ^ bits -> is_u32 x -> Forall proper l ->
  accesses ver (2 ^ bits - 1) l (st0 w d x) = Ok (vs, s) -> ph (seen s) = Idle -> Forall is_u32 bs ->
  (exists lst s2, accesses ver (2 ^ bits - 1) (flat_map (call1 av ae gb 112) bs) s = Ok ([], s2) /\ seen s2 = a_last lst (a_w (printed (map byte_of bs) (aw (seen s))) (seen s))) /\
  (exists lst s2, accesses ver (2 ^ bits - 1) (flat_map (call1 av ae gb 120) bs) s = Ok ([], s2) /\ seen s2 = a_last lst (a_w (printed (flat_map hex_text bs) (aw (seen s))) (seen s))) /\
  (forall f, fout (aw (seen s)) = Some f ->
   exists lst s2, accesses ver (2 ^ bits - 1) (flat_map (call1 av ae gb 119) bs) s = Ok ([], s2) /\ seen s2 = a_last lst (a_w (w_fout (Some (f ++ map byte_of bs)) (aw (seen s))) (seen s))).
Proof.
  intros ver bits w d x l vs s av ae gb bs B D X P A ID F.
  assert (G : forall c f, needs c = 1 -> (forall b x, is_u32 b -> does ver av ae gb c [b] x = (a_w (f b (aw x)) x, [])) ->
    exists lst s2, accesses ver (2 ^ bits - 1) (flat_map (call1 av ae gb (code c)) bs) s = Ok ([], s2) /\ seen s2 = a_last lst (a_w (fold_left (fun w b => f b w) bs (aw (seen s))) (seen s))).
  { intros c f N DO. destruct (call_then ver bits w d x l vs s (flat_map (call1 av ae gb (code c)) bs) B D X P A) as (v2 & s2 & A2 & S2).
    { apply call1_proper; [destruct c; unfold is_u32; cbn; lia|exact F]. }
    destruct (calls1 ver bits av ae gb c f bs N DO (seen s) ID F) as (lst & S). rewrite S in S2. apply pair_inv in S2. destruct S2 as [<- E]. exists lst, s2. split; [exact A2|]. symmetry. exact E. }
  split; [|split].
  - destruct (G Print (fun b => printed [byte_of b])) as (lst & s2 & A2 & E); [reflexivity|reflexivity|]. exists lst, s2. split; [exact A2|]. rewrite E.
    rewrite (fold_print (fun b => [byte_of b])), flat_map_sing. reflexivity.
  - destruct (G Hex (fun b => printed (hex_text b))) as (lst & s2 & A2 & E); [reflexivity|reflexivity|]. exists lst, s2. split; [exact A2|]. rewrite E.
    rewrite (fold_print hex_text). reflexivity.
  - intros f FO. destruct (G Write (fun b => written (byte_of b))) as (lst & s2 & A2 & E); [reflexivity|reflexivity|]. exists lst, s2. split; [exact A2|]. rewrite E.
    rewrite (fold_write bs _ f FO). reflexivity.
Qed.
Print Assumptions C140_output_is_exact.
(** [hex_text] is the number in hexadecimal, with two digits at least *)
Definition hex_value (c : Z) : Z := if c <? 58 then c - 48 else c - 87.
Theorem C140_hex_text_is_the_number : forall v, is_u32 v ->
  fold_left (fun n c => n * 16 + hex_value c) (hex_text v) 0 = v /\ (2 <= length (hex_text v) <= 8)%nat /\
  Forall (fun c => 48 <= c <= 57 \/ 97 <= c <= 102) (hex_text v) /\ ((2 < length (hex_text v))%nat -> nth 0 (hex_text v) 0 <> 48).
Proof.
  intros v V. unfold is_u32 in V. unfold hex_text.
  assert (DG : forall n u, Forall (fun k => 0 <= k < 16) (digits n u)).
  { intros n u. apply Forall_forall. intros k K. unfold digits in K. apply in_map_iff in K. destruct K as (j & <- & _). apply Z.mod_pos_bound. lia. }
  assert (HV : forall k, 0 <= k < 16 -> hex_value (digit k) = k).
  { intros k K. unfold hex_value, digit. destruct (Z.ltb_spec k 10); [destruct (Z.ltb_spec (48 + k) 58); lia|destruct (Z.ltb_spec (87 + k) 58); lia]. }
  assert (FD : forall k a, Forall (fun k => 0 <= k < 16) a -> fold_left (fun n c => n * 16 + hex_value c) (map digit a) k = fold_left (fun n c => n * 16 + c) a k).
  { intros k a H. revert k. induction H as [|b a H1 H2 IH]; intros k; [reflexivity|]. cbn [map fold_left]. rewrite HV by exact H1. apply IH. }
  assert (NZ : forall n a, Forall (fun k => 0 <= k < 16) a -> Forall (fun k => 0 <= k < 16) (no_zeros n a)).
  { induction n as [|n IH]; intros a H; [exact H|]. destruct a as [|b a]; [exact H|]. cbn [no_zeros]. destruct (b =? 0); [apply IH; inversion H; assumption|exact H]. }
  assert (NF : forall n a, fold_left (fun n c => n * 16 + c) (no_zeros n a) 0 = fold_left (fun n c => n * 16 + c) a 0).
  { induction n as [|n IH]; intros a; [reflexivity|]. destruct a as [|b a]; [reflexivity|]. cbn [no_zeros]. destruct (Z.eqb_spec b 0) as [-> |]; [rewrite IH; reflexivity|reflexivity]. }
  assert (VAL : forall n u, 0 <= u < 16 ^ Z.of_nat n -> fold_left (fun n c => n * 16 + c) (digits n u) 0 = u).
  { induction n as [|n IH]; intros u U; [change (16 ^ Z.of_nat 0) with 1 in U; cbn; lia|]. rewrite digits_S, fold_left_app. cbn [fold_left].
    rewrite Nat2Z.inj_succ, Z.pow_succ_r in U by lia. rewrite IH by (split; [apply Z.div_pos; lia|apply Z.div_lt_upper_bound; lia]). pose proof (Z.div_mod u 16). lia. }
  split; [|split; [|split]].
  - rewrite FD by apply NZ, DG. rewrite NF. apply VAL. change (16 ^ Z.of_nat 8) with 4294967296. lia.
  - rewrite map_length. pose proof (no_zeros_len 6 (digits 8 v)) as K. rewrite digits_len in K.
    assert (U : forall n a, (length (no_zeros n a) <= length a)%nat) by (induction n as [|n IH]; intros [|b a]; cbn; try lia; destruct (b =? 0); [specialize (IH a)|cbn]; lia).
    specialize (U 6%nat (digits 8 v)). rewrite digits_len in U. lia.
  - apply Forall_forall. intros c C. apply in_map_iff in C. destruct C as (k & <- & K). assert (Q := NZ 6%nat _ (DG 8%nat v)). rewrite Forall_forall in Q. specialize (Q k K).
    unfold digit. destruct (Z.ltb_spec k 10); lia.
  - rewrite map_length. intros L.
    assert (U : forall n a, (length a <= n + 2)%nat -> (2 < length (no_zeros n a))%nat -> nth 0 (no_zeros n a) 0 <> 0).
    { induction n as [|n IH]; intros a A1 A2; [cbn [no_zeros] in A2; lia|]. destruct a as [|b a]; [cbn in A2; lia|]. cbn [no_zeros] in *. destruct (Z.eqb_spec b 0) as [E|E]; [apply IH; [cbn in A1; lia|exact A2]|exact E]. }
    specialize (U 6%nat (digits 8 v)). rewrite digits_len in U. specialize (U ltac:(lia) L). pose proof (NZ 6%nat _ (DG 8%nat v)) as Q.
    destruct (no_zeros 6 (digits 8 v)) as [|b a]; [cbn in L; lia|]. cbn [map nth] in *. inversion Q as [|? ? Q1 Q2]; subst. unfold digit. destruct (Z.ltb_spec b 10); lia.
Qed.
Print Assumptions C140_hex_text_is_the_number.
Example C140_hyp : hex_text 10 = [48; 97] /\ hex_text 43981 = [97; 98; 99; 100] /\ hex_text 4294967295 = repeat 102 8 /\
  aw (snd (spec [] 8 (flat_map (call1 true false 0 112) [72; 105]) (ready (mkW [33] None None 0 0 0 false true 0) 18 0))) = mkW [33; 72; 105] None None 0 0 0 false true 0.
Proof. repeat split. Qed.

(** ** Input *)
Lemma input_ok ver bits ae gb n : forall x f, ph x = Idle -> fin (aw x) = Some f -> (n <= length f)%nat -> Forall is_u8 f ->
  exists lst, spec ver bits (concat (repeat [Wr true ae gb 114; Rd] n)) x = (firstn n f, a_last lst (a_w (w_fin (Some (skipn n f)) (aw x)) x)).
Proof.
  induction n as [|n IH]; intros x f P E L F.
  - exists (last x). cbn [repeat concat spec firstn skipn]. rewrite <- E. destruct x as [? ? [ ] ]; reflexivity.
  - destruct f as [|b f]; [cbn in L; lia|]. inversion F as [|? ? F1 F2]; subst. cbn [repeat concat]. rewrite spec_app.
    cbn [spec spec1]. unfold spec_write. rewrite P. change (is_code 114) with (Some Read). cbv iota. cbn [needs Z.eqb]. unfold perform. cbn [does]. cbv zeta. rewrite E. cbn [negb]. cbv iota.
    unfold spec_read. cbn [ph a_ph a_last a_w]. cbn [app].
    set (x1 := a_ph Idle _). destruct (IH x1 f) as (lst & S); [reflexivity|reflexivity|cbn in L; lia|exact F2|]. rewrite S. exists lst.
    cbn [app firstn skipn]. unfold is_u8 in F1. rewrite (Z.mod_small b) by lia. unfold x1. destruct x. cbn in P |- *. rewrite P. reflexivity.
Qed.
(** C141: with input available, the n-th 'r' gives the n-th byte of the input file, no byte is lost or given twice. *)
Theorem C141_input_in_order : forall ver bits w d x l vs s ae gb f n,
  2 <= bits <= 32 -> 0 <= d < 2 ^ bits -> is_u32 x -> Forall proper l ->
  accesses ver (2 ^ bits - 1) l (st0 w d x) = Ok (vs, s) -> ph (seen s) = Idle ->
  fin (aw (seen s)) = Some f -> Forall is_u8 f -> (n <= length f)%nat ->
  exists lst s2, accesses ver (2 ^ bits - 1) (concat (repeat [Wr true ae gb 114; Rd] n)) s = Ok (firstn n f, s2) /\
  seen s2 = a_last lst (a_w (w_fin (Some (skipn n f)) (aw (seen s))) (seen s)).
Proof.
  intros ver bits w d x l vs s ae gb f n B D X P A ID E F L.
  destruct (call_then ver bits w d x l vs s (concat (repeat [Wr true ae gb 114; Rd] n)) B D X P A) as (v2 & s2 & A2 & S2).
  { clear. induction n as [|n IH]; [constructor|]. cbn [repeat concat app]. constructor; [cbn; unfold is_u32; lia|]. constructor; [exact Logic.I|exact IH]. }
  destruct (input_ok ver bits ae gb n (seen s) f ID E L F) as (lst & S). rewrite S in S2. apply pair_inv in S2. destruct S2 as [<- E2]. exists lst, s2. split; [exact A2|]. symmetry. exact E2.
Qed.
Print Assumptions C141_input_in_order.
Example C141_hyp : fst (spec [] 8 (concat (repeat [Wr true false 0 114; Rd] 2)) (ready (mkW [] None (Some [1; 2; 3]) 0 0 0 false true 0) 18 0)) = [1; 2].
Proof. reflexivity. Qed.

(** ** The limit *)
(** C142: a limit set with 'L' is what 'l' answers (after the number 4) and what the configuration cell shows; a limit
    that is not 0 counts from here, a limit of 0 does not touch the count that is going on. *)
Theorem C142_limit_round_trip : forall ver bits w d x l vs s av ae gb a b c e cnt,
  2 <= bits <= 32 -> 0 <= d < 2 ^ bits -> is_u32 x -> Forall proper l ->
  accesses ver (2 ^ bits - 1) l (st0 w d x) = Ok (vs, s) -> ph (seen s) = Idle ->
  is_u8 a -> is_u8 b -> is_u8 c -> is_u8 e -> (forall k, is_u32 (cnt k)) ->
  let v := a + 256 * b + 65536 * c + 16777216 * e in
  exists s2, accesses ver (2 ^ bits - 1) (map (Wr av ae gb) [76; a; b; c; e] ++ [CRd cnt 14; Wr av ae gb 108; Rd; Rd; Rd; Rd; Rd]) s = Ok ([v; 4; a; b; c; e], s2) /\
  ph (seen s2) = Idle /\
  aw (seen s2) = (if v =? 0 then w_lim 0 (todo (aw (seen s))) (done (aw (seen s))) (aw (seen s)) else w_lim v v 0 (aw (seen s))).
Proof.
  intros ver bits w d x l vs s av ae gb a b c e cnt B D X P A ID HA HB HC HE CN v. unfold is_u8 in *.
  destruct (call_then ver bits w d x l vs s (map (Wr av ae gb) [76; a; b; c; e] ++ [CRd cnt 14; Wr av ae gb 108; Rd; Rd; Rd; Rd; Rd]) B D X P A) as (v2 & s2 & A2 & S2).
  { cbn [map app]. repeat constructor; try (unfold is_u32; lia); try apply CN. }
  destruct (call_ok ver bits av ae gb SetLimit [a; b; c; e] (seen s) ID eq_refl) as (y & lst & S & E). rewrite spec_app in S2. change (code SetLimit) with 76 in S. rewrite S in S2.
  unfold perform in E. cbn [does] in E. assert (WV : word_of [a; b; c; e] = v) by (unfold word_of, byte_of, v; rewrite !Z.mod_small by lia; reflexivity). rewrite WV in E.
  assert (LM : limit (limited v (aw (seen s))) = v) by (unfold limited; destruct (Z.eqb_spec v 0) as [-> |]; reflexivity).
  assert (BY : bytes_of v = [a; b; c; e]).
  { unfold bytes_of, v. f_equal; [lia|]. f_equal; [|f_equal; [|f_equal] ].
    - replace (a + 256 * b + 65536 * c + 16777216 * e) with (a + (b + 256 * c + 65536 * e) * 256) by lia. rewrite Z.div_add, Z.div_small by lia. lia.
    - replace (a + 256 * b + 65536 * c + 16777216 * e) with ((a + 256 * b) + (c + 256 * e) * 65536) by lia. rewrite Z.div_add, Z.div_small by lia. lia.
    - replace (a + 256 * b + 65536 * c + 16777216 * e) with ((a + 256 * b + 65536 * c) + e * 16777216) by lia. rewrite Z.div_add, Z.div_small by lia. lia. }
  cbn [spec spec1 spec_cread] in S2. subst y. unfold spec_write in S2. cbn [ph a_ph a_last] in S2. change (is_code 108) with (Some GetLimit) in S2. cbv iota in S2. cbn [needs Z.eqb] in S2.
  unfold perform in S2. cbn [does] in S2. cbn [aw a_ph a_last a_w] in S2. rewrite LM, BY in S2. cbn in S2. apply pair_inv in S2. destruct S2 as [<- E2].
  exists s2. split; [exact A2|]. rewrite <- E2. split; reflexivity.
Qed.
Print Assumptions C142_limit_round_trip.
Example C142_hyp : (16 + 256 * 39 + 65536 * 0 + 16777216 * 0 = 10000) /\ ph (seen (st0 (mkW [] None None 0 0 0 false true 0) 18 0)) = Idle. Proof. split; reflexivity. Qed.

(** ** The configuration *)
Definition off_apart (b : bool) (x y : ab) : Prop := y = a_on b x.
Lemma does_on ver av ae gb c ps x b : does ver av ae gb c ps (a_on b x) = (a_on b (fst (does ver av ae gb c ps x)), snd (does ver av ae gb c ps x)).
Proof. destruct c; cbn [does]; cbv zeta; try reflexivity. cbn [aw a_on]. destruct (fin (aw x)) as [ [|? ?]|]; destruct av; reflexivity. Qed.
Lemma spec1_on ver bits y b x : (forall cnt, y <> CRd cnt 0) -> exists b2, spec1 ver bits y (a_on b x) = (fst (spec1 ver bits y x), a_on b2 (snd (spec1 ver bits y x))).
Proof.
  intros N. destruct y as [|av ae gb v|cnt a|cnt a v]; cbn [spec1].
  - exists b. unfold spec_read. cbn [ph a_on]. destruct (ph x) as [|c got|r]; [reflexivity|reflexivity|]. destruct r as [|k [|k2 r] ]; reflexivity.
  - exists b. cbn [fst snd]. f_equal. unfold spec_write. cbn [ph a_on]. destruct (ph x) as [|c got|r]; [| |reflexivity].
    + destruct (is_code v) as [c|]; [|reflexivity]. destruct (needs c =? 0); [|reflexivity]. unfold perform. rewrite does_on. destruct (does ver av ae gb c [] x) as [z r]. reflexivity.
    + destruct (Z.of_nat (length (got ++ [v])) =? needs c); [|reflexivity]. unfold perform. rewrite does_on. destruct (does ver av ae gb c (got ++ [v]) x) as [z r]. reflexivity.
  - exists b. cbn [fst snd]. f_equal. f_equal. assert (a <> 0) by (intros ->; apply (N cnt); reflexivity). unfold spec_cread.
    destruct a as [|p|p]; [contradiction| |reflexivity]. repeat (destruct p as [p|p|]; try reflexivity).
  - cbn [fst snd]. assert (G : exists b2, spec_cwrite a v (a_on b x) = a_on b2 (spec_cwrite a v x)); [|destruct G as [b2 G]; exists b2; rewrite G; reflexivity].
    unfold spec_cwrite. destruct a as [|p|p]; [exists (negb (v =? 0)); reflexivity| |exists b; reflexivity].
    exists b. repeat (destruct p as [p|p|]; try reflexivity). destruct (v =? 0); reflexivity.
Qed.
Lemma spec_on ver bits l : forall b x, (forall cnt, ~ In (CRd cnt 0) l) -> exists b2, spec ver bits l (a_on b x) = (fst (spec ver bits l x), a_on b2 (snd (spec ver bits l x))).
Proof.
  induction l as [|y l IH]; intros b x N; [exists b; reflexivity|]. cbn [spec]. destruct (spec1_on ver bits y b x) as [b1 E]; [intros cnt ->; apply (N cnt); left; reflexivity|].
  rewrite E. destruct (spec1 ver bits y x) as [v x1]. cbn [fst snd]. destruct (IH b1 x1) as [b2 E2]; [intros cnt I; apply (N cnt); right; exact I|]. rewrite E2.
  destruct (spec ver bits l x1) as [u x2]. exists b2. reflexivity.
Qed.
(** C143: switching the interface off in its configuration changes nothing of what the program reads later (but the switch itself),
    prints or writes. *)
Theorem C143_on_has_no_effect : forall ver bits w d x l1 l2 cnt v,
  2 <= bits <= 32 -> 0 <= d < 2 ^ bits -> is_u32 x -> Forall proper l1 -> Forall proper l2 -> is_u32 v -> (forall k, is_u32 (cnt k)) ->
  (forall cnt, ~ In (CRd cnt 0) l2) ->
  exists vs s s2, accesses ver (2 ^ bits - 1) (l1 ++ l2) (st0 w d x) = Ok (vs, s) /\
  accesses ver (2 ^ bits - 1) (l1 ++ CWr cnt 0 v :: l2) (st0 w d x) = Ok (vs, s2) /\ wd s2 = wd s /\ ph (seen s2) = ph (seen s).
Proof.
  intros ver bits w d x l1 l2 cnt v B D X P1 P2 V C N.
  destruct (history ver bits w d x (l1 ++ l2) B D X) as (vs & s & A & S); [apply Forall_app; split; assumption|].
  destruct (history ver bits w d x (l1 ++ CWr cnt 0 v :: l2) B D X) as (vs2 & s2 & A2 & S2).
  { apply Forall_app. split; [exact P1|]. constructor; [|exact P2]. cbn. repeat split; try lia; try apply V; apply C. }
  rewrite spec_app in S, S2. destruct (spec ver bits l1 (ready w d x)) as [v1 x1]. cbn [spec spec1 spec_cwrite] in S2.
  destruct (spec_on ver bits l2 (negb (v =? 0)) x1 N) as [b E]. rewrite E in S2. destruct (spec ver bits l2 x1) as [v3 x3]. cbn [fst snd app] in S2.
  apply pair_inv in S. destruct S as [<- E1]. apply pair_inv in S2. destruct S2 as [<- S2]. exists (v1 ++ v3), s, s2. split; [exact A|]. split; [exact A2|].
  split; [change (aw (seen s2) = aw (seen s)) | ]; rewrite <- S2, <- E1; reflexivity.
Qed.
Print Assumptions C143_on_has_no_effect.
Example C143_hyp : Forall proper [CWr (fun _ => 0) 0 0; Wr true false 0 95; Rd] /\
  fst (spec [] 8 [CWr (fun _ => 0) 0 0; Wr true false 0 95; Rd] (ready (mkW [] None None 0 0 0 false true 0) 18 0)) = [33].
Proof. split; [repeat constructor; unfold is_u32; lia|reflexivity]. Qed.

Definition stopping (y : access) : Prop := match y with CWr _ 1 0 => True | CWr _ 3 _ => True | Wr _ _ _ v => v = 115 | _ => False end.
(** C144: configuration cells that only report (the reason of the stop, the counters) cannot be changed by the program: a write
    there changes no value read later, nor anything else; and the reason of the stop stays what it is as
    long as the program does not stop the simulation. *)
Theorem C144_reports_are_read_only : forall ver bits w d x l1 l2 cnt a v,
  2 <= bits <= 32 -> 0 <= d < 2 ^ bits -> is_u32 x -> Forall proper l1 -> Forall proper l2 -> is_u32 v -> (forall k, is_u32 (cnt k)) ->
  a = 5 \/ 7 <= a <= 11 ->
  exists vs s s2, accesses ver (2 ^ bits - 1) (l1 ++ l2) (st0 w d x) = Ok (vs, s) /\
  accesses ver (2 ^ bits - 1) (l1 ++ CWr cnt a v :: l2) (st0 w d x) = Ok (vs, s2) /\ seen s2 = seen s.
Proof.
  intros ver bits w d x l1 l2 cnt a v B D X P1 P2 V C O.
  destruct (history ver bits w d x (l1 ++ l2) B D X) as (vs & s & A & S); [apply Forall_app; split; assumption|].
  destruct (history ver bits w d x (l1 ++ CWr cnt a v :: l2) B D X) as (vs2 & s2 & A2 & S2).
  { apply Forall_app. split; [exact P1|]. constructor; [|exact P2]. cbn. repeat split; try lia; try apply V; apply C. }
  rewrite spec_app in S, S2. destruct (spec ver bits l1 (ready w d x)) as [v1 x1]. cbn [spec spec1] in S2.
  assert (E : spec_cwrite a v x1 = x1) by (assert (O2 : a = 5 \/ a = 7 \/ a = 8 \/ a = 9 \/ a = 10 \/ a = 11) by lia; clear - O2; repeat destruct O2 as [-> |O2]; try subst a; reflexivity).
  rewrite E in S2. destruct (spec ver bits l2 x1) as [v3 x3]. cbn [app] in S2. apply pair_inv in S. destruct S as [<- E1]. apply pair_inv in S2. destruct S2 as [<- S2].
  exists (v1 ++ v3), s, s2. split; [exact A|]. split; [exact A2|]. rewrite <- S2, <- E1. reflexivity.
Qed.
Print Assumptions C144_reports_are_read_only.
Theorem C144_reason_is_kept : forall ver bits w d x l cnt,
  2 <= bits <= 32 -> 0 <= d < 2 ^ bits -> is_u32 x -> Forall proper l -> (forall k, is_u32 (cnt k)) ->
  exists vs r s, accesses ver (2 ^ bits - 1) (l ++ [CRd cnt 5]) (st0 w d x) = Ok (vs ++ [r], s) /\ (r = 0 \/ r = 110) /\
  (r = 110 -> exists y, In y l /\ stopping y).
Proof.
  intros ver bits w d x l cnt B D X P C.
  destruct (history ver bits w d x (l ++ [CRd cnt 5]) B D X) as (vs & s & A & S).
  { apply Forall_app. split; [exact P|]. constructor; [|constructor]. cbn. split; [lia|apply C]. }
  rewrite spec_app in S.
  assert (G : forall l y v x, spec ver bits l y = (v, x) -> areason y = 0 \/ areason y = 110 -> (match ph y with Need c _ => needs c <> 0 | _ => True end) ->
    (areason x = 0 \/ areason x = 110) /\ (areason x = 110 -> areason y = 110 \/ exists z, In z l /\ stopping z)).
  { clear. induction l as [|z l IH]; intros y v x S R Q.
    - apply pair_inv in S. destruct S as [<- <-]. split; [exact R|]. intros E. left. exact E.
    - cbn [spec] in S. destruct (spec1 ver bits z y) as [v1 y1] eqn:E1. destruct (spec ver bits l y1) as [v2 y2] eqn:E2. apply pair_inv in S. destruct S as [<- <-].
      assert (K : (match ph y1 with Need c _ => needs c <> 0 | _ => True end) /\ (areason y1 = areason y \/ (areason y1 = 110 /\ stopping z))).
      { destruct z as [|av ae gb u|c2 a|c2 a u]; cbn [spec1] in E1.
        - unfold spec_read in E1. destruct (ph y) as [|c got|r] eqn:PY; try (injection E1 as <- <-; rewrite PY; split; [exact Q|left; reflexivity]).
          destruct r as [|k [|k2 r] ]; injection E1 as <- <-; (split; [cbn [ph a_ph]; try rewrite PY; exact Logic.I|left; reflexivity]).
        - injection E1 as <- <-. unfold spec_write. cbn [ph a_last areason].
          assert (DN : forall c ps, c <> Stop -> areason (perform ver av ae gb c ps y) = areason y).
          { intros c ps N. unfold perform. destruct c; try contradiction; cbn [does]; cbv zeta; try reflexivity. destruct (fin (aw y)) as [ [|? ?]|]; destruct av; reflexivity. }
          assert (DP : forall c ps, match ph (perform ver av ae gb c ps y) with Need c _ => needs c <> 0 | _ => True end).
          { intros c ps. unfold perform. destruct (does ver av ae gb c ps y) as [q r]. cbn [ph a_ph]. destruct r; exact Logic.I. }
          destruct (ph y) as [|c got|r] eqn:PY.
          + destruct (is_code u) as [c|] eqn:CU; [|rewrite PY; split; [exact Logic.I|left; reflexivity] ].
            destruct (Z.eqb_spec (needs c) 0) as [N|N]; [|split; [cbn [ph a_ph]; exact N|left; reflexivity] ].
            split; [apply DP|]. destruct (ceq_spec c Stop) as [-> |NS]; [|left; apply DN, NS]. right. split; [reflexivity|].
            apply find_some in CU. destruct CU as [_ CU]. cbn [stopping]. apply Z.eqb_eq in CU. symmetry. exact CU.
          + destruct (Z.of_nat (length (got ++ [u])) =? needs c); [|split; [cbn [ph a_ph]; exact Q|left; reflexivity] ].
            split; [apply DP|]. left. apply DN. intros ->. apply Q. reflexivity.
          + rewrite PY. split; [exact Logic.I|left; reflexivity].
        - injection E1 as <- <-. split; [exact Q|left; reflexivity].
        - injection E1 as <- <-. unfold spec_cwrite. destruct a as [|p|p]; [split; [exact Q|left; reflexivity]| |split; [exact Q|left; reflexivity] ].
          repeat (destruct p as [p|p|]; try (split; [exact Q|left; reflexivity])); try (split; [exact Q|right; split; [reflexivity|exact Logic.I] ]).
          destruct (Z.eqb_spec u 0) as [-> |]; [split; [exact Q|right; split; [reflexivity|exact Logic.I] ]|split; [exact Q|left; reflexivity] ]. }
      destruct K as [K1 K2]. destruct (IH y1 v2 y2 E2) as [I1 I2]; [destruct K2 as [-> |[-> _] ]; [exact R|right; reflexivity]|exact K1|].
      split; [exact I1|]. intros E. destruct (I2 E) as [E3|(q & Q1 & Q2)].
      + destruct K2 as [K2|[_ K2] ]; [left; congruence|]. right. exists z. split; [left; reflexivity|exact K2].
      + right. exists q. split; [right; exact Q1|exact Q2]. }
  destruct (spec ver bits l (ready w d x)) as [v1 x1] eqn:E1. destruct (G l (ready w d x) v1 x1 E1) as [G1 G2]; [left; reflexivity|exact Logic.I|].
  cbn [spec spec1 spec_cread] in S. apply pair_inv in S. destruct S as [<- _]. exists v1, (areason x1), s. split; [exact A|]. split; [exact G1|]. intros E. destruct (G2 E) as [G3|G3]; [discriminate G3|exact G3].
Qed.
Print Assumptions C144_reason_is_kept.
Example C144_hyp : fst (spec [] 8 [CWr (fun _ => 0) 3 9; CWr (fun _ => 0) 5 7; CRd (fun _ => 0) 5] (ready (mkW [] None None 0 0 0 false true 0) 18 0)) = [110].
Proof. reflexivity. Qed.
