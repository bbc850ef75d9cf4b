(** C27 and C28: the symbol table. *)
From Verif Require Import Base SortedSpec VarModel VarSpec VarProofs VarProofs2.

(** What a name denotes after a history, said without the table: the variable of the
    last addition of that name, unless the name was removed since then, or the
    variable is a label made by the analyzer and another one was added at its place. *)
Definition denotes (ops : list vop) (n : list Z) (v : var) : Prop :=
  exists before after, ops = before ++ VAdd v :: after /\ vname v = n /\
    forall o, In o after ->
      match o with
      | VDel m => m <> n
      | VAdd w => vname w <> n /\ ~ (is_auto v = true /\ same_place v w = true)
      | VMax => True
      end.

Lemma denotes_spec ops n v : (In v (vspec ops) /\ vname v = n) <-> denotes ops n v.
Proof.
  revert v. induction ops as [|o ops IH] using rev_ind; intros v.
  - split; [intros [[] _]|]. intros (b & a & E & _). destruct b; discriminate.
  - unfold vspec. rewrite fold_left_app. cbn [fold_left]. fold (vspec ops). 
    assert (Step : forall P : Prop, (forall before after, ops = before ++ VAdd v :: after -> vname v = n ->
        (forall o', In o' after -> match o' with VDel m => m <> n | VAdd w => vname w <> n /\ ~ (is_auto v = true /\ same_place v w = true) | VMax => True end) ->
        match o with VDel m => m <> n | VAdd w => vname w <> n /\ ~ (is_auto v = true /\ same_place v w = true) | VMax => True end -> P) ->
        (o = VAdd v -> vname v = n -> P) -> denotes (ops ++ [o]) n v -> P).
    { intros P H1 H2 (b & a & E & Hn & Ha).
      destruct a as [|o' a] using rev_ind.
      - apply app_inj_tail in E. destruct E as [_ E]. subst o. auto.
      - clear IHa. rewrite app_comm_cons, app_assoc in E. apply app_inj_tail in E. destruct E as [E E']. subst o'.
        apply (H1 b a); auto; [intros o'' Ho; apply Ha, in_or_app; auto|]. apply Ha. apply in_or_app. right. left. auto. }
    assert (Ext : denotes ops n v -> match o with VDel m => m <> n | VAdd w => vname w <> n /\ ~ (is_auto v = true /\ same_place v w = true) | VMax => True end ->
       denotes (ops ++ [o]) n v).
    { intros (b & a & E & Hn & Ha) Ho. exists b, (a ++ [o]). split; [rewrite E, <- app_assoc; reflexivity|]. split; auto.
      intros o' H. apply in_app_iff in H. destruct H as [H|[<-|[]]]; [apply Ha; exact H|exact Ho]. }
    destruct o as [w|m|]; cbn [vspec_step].
    + rewrite in_app_iff, filter_In. split.
      * intros [[[H1 H2]|[->|[]]] Hn].
        -- apply andb_true_iff in H2. destruct H2 as [H2 H3]. apply negb_true_iff in H2, H3. apply name_is_false in H2.
           apply Ext; auto; [apply IH; auto|]. split; [congruence|]. intros [A1 A2]. unfold auto_at in H3. rewrite A1, A2 in H3. discriminate.
        -- exists ops, []. repeat split; auto. intros o [].
      * apply Step.
        -- intros b a E Hn Ha [H1 H2]. split; auto. left. split.
           ++ apply IH. exists b, a. auto.
           ++ apply andb_true_iff. rewrite !negb_true_iff. split; [apply name_is_false; congruence|].
              unfold auto_at. destruct (is_auto v); destruct (same_place v w); cbn; auto. tauto.
        -- intros E Hn. injection E as <-. split; auto. right. left. reflexivity.
    + rewrite filter_In, negb_true_iff, name_is_false. split.
      * intros [[H1 H2] Hn]. apply Ext; auto; [apply IH; auto|]. congruence.
      * apply Step; [|discriminate]. intros b a E Hn Ha H. split; auto. split; [|congruence]. apply IH. exists b, a. auto.
    + split.
      * intros H. apply Ext; auto. apply IH. auto.
      * apply Step; [|discriminate]. intros b a E Hn Ha H. apply IH. exists b, a. auto.
Qed.

Lemma history ops : wf_hist ops -> exists x, vrun new_vars ops = Ok x /\ inv x (vspec ops) /\ minv x (vspec ops) /\
  (careful true [] ops = true -> exists c, cinv x (vspec ops) c).
Proof.
  intros (W & N & L). destruct (run_ok ops new_vars [] new_inv) as (x & E & I & M & K).
  - unfold minv. cbn. lia.
  - split; auto.
  - cbn [length]. unfold ListModel.max_list_size. lia.
  - exists x. split; [exact E|]. split; [exact I|]. split; [exact M|]. intros Ca. apply (K true); auto. split; auto.
Qed.

(** After any history of additions, removals and queries (variables are new objects
    at valid places, at most 8192 additions): looking up a name finds exactly what the
    history says it denotes, and nothing otherwise; a name denotes at most one variable. *)
Theorem C27_names : forall ops, wf_hist ops -> exists x, vrun new_vars ops = Ok x /\
  (forall n, exists r, get_var x n = Ok r /\ forall v, r = Some v <-> denotes ops n v) /\
  (forall n v w, denotes ops n v -> denotes ops n w -> v = w).
Proof.
  intros ops W. destruct (history ops W) as (x & E & I & _). exists x. split; [exact E|].
  pose proof (inv_names x _ I) as Hu. split.
  - intros n. exists (lookup (vspec ops) n). split; [apply get_var_ok; auto|]. intros v. rewrite (lookup_in _ _ Hu). apply denotes_spec.
  - intros n v w Hv Hw. apply denotes_spec in Hv, Hw. apply Hu; try tauto. destruct Hv, Hw. congruence.
Qed.
Print Assumptions C27_names.

(** order of the names of one place *)
Definition at_place (v : var) (u a h l : Z) : Prop := vmem v = Some u /\ vaddr v = a /\ vbh v = h /\ vbl v = l.
(** The address view agrees: the variable shown for a place (memory, address, bits)
    is one that its name denotes and which lies there, the first one in the order of
    names; nothing is shown only if no name denotes a variable there. *)
Theorem C27_places : forall ops, wf_hist ops -> exists x, vrun new_vars ops = Ok x /\
  forall u a h l, 0 <= u < 1000000 -> 0 <= a < 2147483648 -> -1 <= l <= h -> h < 64 ->
  exists r, find_place x u a h l = Ok r /\
  match r with
  | Some v => denotes ops (vname v) v /\ at_place v u a h l /\
      forall w, denotes ops (vname w) w -> at_place w u a h l -> strcmp (vname v) (vname w) <= 0
  | None => forall v, denotes ops (vname v) v -> ~ at_place v u a h l
  end.
Proof.
  intros ops W. destruct (history ops W) as (x & E & I & _). exists x. split; [exact E|].
  intros u a h l Hu Ha Hl Hh. destruct I as (s1 & s2 & (R1 & O1 & R2 & O2) & M1 & M2 & Wf & U & A & N).
  pose proof (mem_wfm _ _ Wf M2) as W2. assert (P : wf_place u a h l) by (unfold wf_place; lia).
  assert (Den : forall v, In v s2 <-> denotes ops (vname v) v /\ is_mem_var v = true).
  { intros v. rewrite M2, <- denotes_spec. tauto. }
  assert (Pl : forall v, In v s2 -> (cmp_bits v u a h l = 0 <-> at_place v u a h l)).
  { intros v Hv. rewrite Forall_forall in W2. pose proof (W2 v Hv) as Wv. pose proof (cmp_bits_sgn v u a h l Wv P) as S.
    destruct Wv as [Mv Pv]. pose proof (vmem_vu v Mv) as Vm. unfold wf_place in *. unfold at_place. rewrite Vm.
    assert (Q : cmp_bits v u a h l = 0 <-> vpkey v = pkey u a h l) by (rewrite <- strcmp_eq, <- S; lia).
    rewrite Q. split.
    - intros H. apply pkey_inj in H; [|lia|lia]. intuition congruence.
    - intros (H1 & H2 & H3 & H4). injection H1 as H1. unfold vpkey. congruence. }
  assert (Mem : forall v, at_place v u a h l -> is_mem_var v = true).
  { intros v (H & _). unfold is_mem_var. rewrite H. reflexivity. }
  destruct (first_of (fun v => cmp_bits v u a h l) (ba x) s2 R2 (place_mono s2 u a h l O2 W2 P) O2) as (r & Er & Hr).
  exists r. split; [exact Er|]. destruct r as [v|].
  - destruct Hr as (H1 & H2 & H3). split; [apply Den; auto|]. split; [apply Pl; auto|].
    intros w Hw Pw. assert (Hw2 : In w s2) by (apply Den; auto). apply (Pl w Hw2) in Pw as Cw. specialize (H3 w Hw2 Cw).
    unfold icmp, vkey in H3. rewrite strcmp_app in H3 by reflexivity.
    apply (Pl v H1) in H2. assert (Ek : vpkey v = vpkey w).
    { unfold vpkey, vu. destruct H2 as (-> & -> & -> & ->). destruct Pw as (-> & -> & -> & ->). reflexivity. }
    rewrite Ek, strcmp_refl in H3. exact H3.
  - intros v Hv Pv. assert (Hv2 : In v s2) by (apply Den; auto). apply (Hr v Hv2). apply Pl; auto.
Qed.
Print Assumptions C27_places.

(** Looking for an address alone finds a variable (whole cell or bits) iff there is one. *)
Theorem C27_addresses : forall ops, wf_hist ops -> exists x, vrun new_vars ops = Ok x /\
  forall u a, 0 <= u < 1000000 -> 0 <= a < 2147483648 ->
  exists r, find_addr x u a = Ok r /\
  match r with
  | Some v => denotes ops (vname v) v /\ vmem v = Some u /\ vaddr v = a
  | None => forall v, denotes ops (vname v) v -> ~ (vmem v = Some u /\ vaddr v = a)
  end.
Proof.
  intros ops W. destruct (history ops W) as (x & E & I & _). exists x. split; [exact E|].
  intros u a Hu Ha. destruct I as (s1 & s2 & (R1 & O1 & R2 & O2) & M1 & M2 & Wf & U & A & N).
  pose proof (mem_wfm _ _ Wf M2) as W2.
  assert (Den : forall v, In v s2 <-> denotes ops (vname v) v /\ is_mem_var v = true).
  { intros v. rewrite M2, <- denotes_spec. tauto. }
  assert (Pl : forall v, In v s2 -> (cmp_addr v u a = 0 <-> vmem v = Some u /\ vaddr v = a)).
  { intros v Hv. rewrite Forall_forall in W2. pose proof (W2 v Hv) as Wv. pose proof (cmp_addr_sgn v u a Wv Hu Ha) as S.
    destruct Wv as [Mv Pv]. pose proof (vmem_vu v Mv) as Vm. rewrite Vm.
    assert (Q : cmp_addr v u a = 0 <-> [vu v; vaddr v] = [u; a]) by (rewrite <- strcmp_eq, <- S; lia).
    rewrite Q. split; [intros H; injection H; intuition congruence|intros [H1 H2]; congruence]. }
  destruct (first_of (fun v => cmp_addr v u a) (ba x) s2 R2 (addr_mono s2 u a O2 W2 Hu Ha) O2) as (r & Er & Hr).
  exists r. split; [exact Er|]. destruct r as [v|].
  - destruct Hr as (H1 & H2 & _). split; [apply Den; auto|]. apply Pl; auto.
  - intros v Hv [P1 P2]. assert (Hv2 : In v s2) by (apply Den; split; [auto|unfold is_mem_var; rewrite P1; auto]).
    apply (Hr v Hv2). apply Pl; auto.
Qed.
Print Assumptions C27_addresses.

(** Addresses 2^31 or more apart compare wrongly (the unsigned difference is put into
    an int): with four variables the order is cyclic and a denoted variable is not
    found at its place. *)
Definition far : list vop :=
  [VAdd (new_var 1 [97] (Some 5) 0 (-1) (-1)); VAdd (new_var 2 [98] (Some 5) 0x60000000 (-1) (-1));
   VAdd (new_var 3 [99] (Some 5) 0xA0000000 (-1) (-1)); VAdd (new_var 4 [100] (Some 5) 0xC0000000 (-1) (-1))].
Theorem C27_far_addresses_deviation : exists x, vrun new_vars far = Ok x /\
  exists v, denotes far (vname v) v /\ at_place v 5 (vaddr v) (-1) (-1) /\
  find_place x 5 (vaddr v) (-1) (-1) = Ok None.
Proof.
  eexists. split; [vm_compute; reflexivity|]. exists (new_var 2 [98] (Some 5) 0x60000000 (-1) (-1)).
  split; [apply denotes_spec; vm_compute; tauto|split; [vm_compute; tauto|vm_compute; reflexivity]].
Qed.
Print Assumptions C27_far_addresses_deviation.

(** -- C28 -- *)
(** the longest name among the denoted ones *)
Definition is_longest (ops : list vop) (m : Z) : Prop :=
  (forall n v, denotes ops n v -> slen n <= m) /\ (m = 0 \/ exists n v, denotes ops n v /\ slen n = m).
Lemma longest_is ops : is_longest ops (longest (vspec ops)).
Proof.
  split.
  - intros n v H. apply denotes_spec in H. destruct H as [H <-]. apply longest_ge. exact H.
  - destruct (longest_in (vspec ops)) as [H|(v & V1 & V2)]; auto. right. exists (vname v), v. split; auto. apply denotes_spec. auto.
Qed.
Lemma is_longest_unique ops m : is_longest ops m -> m = longest (vspec ops).
Proof.
  intros [A1 A2]. destruct (longest_is ops) as [B1 B2]. pose proof (longest_nonneg (vspec ops)).
  assert (0 <= m). { destruct A2 as [->|(n & v & _ & <-)]; unfold slen; lia. }
  apply Z.le_antisymm.
  - destruct A2 as [->|(n & v & D & <-)]; [lia|eauto].
  - destruct B2 as [->|(n & v & D & <-)]; [lia|eauto].
Qed.

(** The reported length is never too small, after any history. *)
Theorem C28_upper_bound : forall ops, wf_hist ops -> exists x x' m, vrun new_vars ops = Ok x /\
  get_max_name_len x = Ok (x', m) /\ forall n v, denotes ops n v -> slen n <= m.
Proof.
  intros ops W. destruct (history ops W) as (x & E & I & M & _).
  destruct (get_max_ok x _ I M) as (x' & m & G & _ & _ & _ & _ & L & _). exists x, x', m. split; [exact E|]. split; [exact G|].
  intros n v D. pose proof (proj1 (longest_is ops) n v D). lia.
Qed.
Print Assumptions C28_upper_bound.

(** It is exact for every history in which no existing name is added again while
    the cached length is invalid (a variable was removed since the last query). *)
Theorem C28_exact : forall ops, wf_hist ops -> careful true [] ops = true ->
  exists x x' m, vrun new_vars ops = Ok x /\ get_max_name_len x = Ok (x', m) /\ is_longest ops m.
Proof.
  intros ops W Ca. destruct (history ops W) as (x & E & I & M & K). destruct (K Ca) as (c & K1 & K2).
  destruct (get_max_ok x _ I M) as (x' & m & G & _ & _ & _ & _ & L & G1 & G2). exists x, x', m. split; [exact E|]. split; [exact G|].
  assert (m = longest (vspec ops)) as ->; [|apply longest_is].
  destruct (known x) eqn:Kx; [rewrite G2 by auto; auto|auto].
Qed.
Print Assumptions C28_exact.

(** In general it is not: add "bbbb", "a", remove "bbbb", add "a" again: 4. *)
Definition stale : list vop :=
  [VAdd (new_var 1 [98; 98; 98; 98] (Some 5) 0 (-1) (-1)); VAdd (new_var 2 [97] (Some 5) 1 (-1) (-1));
   VDel [98; 98; 98; 98]; VAdd (new_var 3 [97] (Some 5) 2 (-1) (-1))].
Theorem C28_stale_deviation : wf_hist stale /\ exists x x', vrun new_vars stale = Ok x /\
  get_max_name_len x = Ok (x', 4) /\ is_longest stale 1 /\ ~ is_longest stale 4.
Proof.
  split.
  - split; [|split].
    + repeat constructor; vm_compute; intuition discriminate.
    + repeat constructor; cbn; intuition discriminate.
    + vm_compute. discriminate.
  - eexists _, _. split; [vm_compute; reflexivity|]. split; [vm_compute; reflexivity|]. split.
    + assert (E : 1 = longest (vspec stale)) by (vm_compute; reflexivity). rewrite E. apply longest_is.
    + intros H. apply is_longest_unique in H. vm_compute in H. discriminate.
Qed.
Print Assumptions C28_stale_deviation.

(** The hypotheses are met: user symbols, an analyzer label replaced by a user
    symbol, a bit, a register variable. *)
Example C27_nonvacuous :
  let ops := [VAdd (new_var 1 [46; 49] (Some 0) 256 (-1) (-1)); VAdd (new_var 2 [65] None 0 (-1) (-1));
              VAdd (new_var 3 [109] (Some 0) 256 (-1) (-1)); VAdd (new_var 4 [98] (Some 0) 256 3 0);
              VMax; VAdd (new_var 5 [65] (Some 1) 7 (-1) (-1)); VDel [98]; VMax] in
  wf_hist ops /\ careful true [] ops = true /\ map vid (vspec ops) = [3; 5] /\
  exists x, vrun new_vars ops = Ok x /\ get_var x [46; 49] = Ok None /\
    find_place x 0 256 (-1) (-1) = Ok (Some (new_var 3 [109] (Some 0) 256 (-1) (-1))).
Proof.
  cbv zeta. split; [|split; [vm_compute; reflexivity|split; [vm_compute; reflexivity|]]].
  - split; [|split].
    + repeat constructor; vm_compute; intuition discriminate.
    + repeat constructor; cbn; intuition discriminate.
    + vm_compute. discriminate.
  - eexists. split; [vm_compute; reflexivity|]. split; vm_compute; reflexivity.
Qed.
