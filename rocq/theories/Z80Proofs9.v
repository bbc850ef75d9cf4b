(** Z80: one step. *)
From Verif Require Import Base Z80Model Z80Spec Z80Proofs Z80Proofs2 Z80Proofs3 Z80Proofs4 Z80Proofs5 Z80Proofs6 Z80Proofs7 Z80Proofs8.

Definition kind (o : op) : Z := match o with PCB => 1 | PED => 2 | PXD false => 3 | PXD true => 4 | PXCB | INV => 5 | _ => 0 end.
Definition kind_of (c : Z) : Z := if c =? 203 then 1 else if c =? 237 then 2 else if c =? 221 then 3 else if c =? 253 then 4 else 0.
Lemma kind_eq c : byte c -> kind (decode c) = kind_of c.
Proof.
  intros H. assert (S := sweep 256 (fun c => kind (decode c) =? kind_of c) ltac:(vm_compute; reflexivity) c ltac:(unfold byte in H; lia)).
  cbv beta in S. lia.
Qed.
Lemma kind_xd c : byte c -> indexed c = None \/ indexed c = Some PXCB \/ (exists o, indexed c = Some o /\ kind o = 0).
Proof.
  intros H. assert (S := sweep 256 (fun c => match indexed c with None => true | Some PXCB => true | Some o => kind o =? 0 end)
    ltac:(vm_compute; reflexivity) c ltac:(unfold byte in H; lia)).
  cbv beta in S. destruct (indexed c) as [o|]; [|left; reflexivity]. right.
  destruct o; first [left; reflexivity | right; eexists; split; [reflexivity|]; apply Z.eqb_eq; exact S].
Qed.
Lemma kind_ed c : byte c -> decode_ed c = None \/ (exists o, decode_ed c = Some o /\ kind o = 0).
Proof.
  intros H. assert (S := sweep 256 (fun c => match decode_ed c with None => true | Some o => kind o =? 0 end)
    ltac:(vm_compute; reflexivity) c ltac:(unfold byte in H; lia)).
  cbv beta in S. destruct (decode_ed c) as [o|]; [|left; reflexivity]. right. exists o. split; [reflexivity|lia].
Qed.

(** the instruction after its first code *)
Definition rest (c : Z) (x : M) : instr * M :=
  if c =? 203 then let '(c, x) := next8 x in (cb c, x)
  else if c =? 237 then
    let '(c, x) := next8 x in
    (match decode_ed c with Some o => plain false o | None => undefined end, x)
  else if (c =? 221) || (c =? 253) then
    let y := c =? 253 in
    let '(c, x) := next8 x in
    match indexed c with
    | Some PXCB => let '(d, x) := next8 x in let '(c, x) := next8 x in (xcb (w (pairv y XX x + sgn d)) c, x)
    | Some o => (plain y o, x)
    | None => (undefined, x)
    end
  else (plain false (decode c), x).
Lemma instr_rest x : instr_at x = rest (fst (next8 x)) (snd (next8 x)).
Proof. reflexivity. Qed.
Lemma rest_count c x : rest c (count_r x) = (fst (rest c x), count_r (snd (rest c x))).
Proof.
  unfold rest. destruct (c =? 203); [reflexivity|]. destruct (c =? 237).
  { cbn [next8 count_r s_vr mm pc]. reflexivity. }
  destruct ((c =? 221) || (c =? 253)); [|reflexivity].
  cbn [next8 mm pc count_r s_vr]. destruct (indexed (mm x (pc x))) as [o|]; [|reflexivity].
  destruct o; reflexivity.
Qed.

Lemma wf_set_rr v s : wf s -> byte v -> wf (set_rr v s).
Proof. unfold wf. cbn. intros H Hv. decompose [and] H. repeat (split; [assumption|]). assumption. Qed.
Lemma inc_R_byte v : byte v -> byte (inc_R v).
Proof.
  unfold byte, inc_R. intros H. pose proof (Z.mod_pos_bound (v mod 128 + 1) 128 ltac:(lia)).
  assert (0 <= v / 128 < 2) by (split; [apply Z.div_pos|apply Z.div_lt_upper_bound]; lia). lia.
Qed.

Lemma codes_in x :
  let c := mm x (pc x) in
  (c = 203 \/ c = 237 \/ c = 221 \/ c = 253 -> In 1 (codes x)) /\
  (c = 221 \/ c = 253 -> mm x (w (pc x + 1)) = 203 -> In 3 (codes x)).
Proof.
  cbv zeta. unfold codes, instr_at. cbn [next8]. set (c := mm x (pc x)). split; intros H.
  - destruct (Z.eqb_spec c 203); [left; reflexivity|]. destruct (Z.eqb_spec c 237).
    { cbn [fst mm pc s_pc orb]. destruct (decode_ed _); left; reflexivity. }
    assert (E : (c =? 221) || (c =? 253) = true) by lia. rewrite E. cbn [orb].
    destruct (indexed _) as [o|]; [destruct o|]; cbn [fst]; rewrite ?E; left; reflexivity.
  - intros E2. destruct H as [-> | ->]; cbn [Z.eqb Pos.eqb orb mm s_pc pc]; rewrite E2; right; left; reflexivity.
Qed.

Section Z.
Variable dum lim : Z.
Variable hit : Z -> bool.
Notation exec := (Z80Model.exec dum lim).
Notation run := (Z80Model.run dum lim hit).
Notation step := (Z80Model.step dum lim hit).

Lemma exec_res y ipc o s : kind o = 0 -> fst (exec y ipc o s) = outcome (plain y o).
Proof.
  intros K. destruct o; try discriminate K; cbn [Z80Model.exec outcome];
    repeat match goal with |- fst (let '(_, _) := ?e in _) = _ => destruct e end; try reflexivity.
  - destruct c; destruct (fetch dum s); reflexivity.
  - destruct c; destruct (fetch2 dum s); reflexivity.
  - destruct c; [destruct (holds _ _)|]; match goal with |- context [fetch2 dum ?q] => destruct (fetch2 dum q) end; reflexivity.
  - destruct c; [destruct (holds _ _); [|reflexivity]|]; destruct (pop2 dum s); reflexivity.
  - destruct iy; discriminate K.
Qed.
(** no breakpoint at the codes behind the first one *)
Definition quiet (c : Z) (s : cpu) : Prop :=
  (c = 203 \/ c = 237 \/ c = 221 \/ c = 253 -> hit (PC s) = false) /\
  (c = 221 \/ c = 253 -> mem s (PC s) = 203 -> hit (w (PC s + 2)) = false).
(** what a step does after the first code was fetched *)
Lemma run_eq ipc c s : wf s -> byte c -> quiet c s -> ipc = w (PC s - 1) ->
  let '(i, x) := rest c (abs s) in
  fst (run ipc c s) = outcome i /\
  (~ deviates i x -> agree (~ deviates_flags i x) (abs (snd (run ipc c s))) (effect i x)).
Proof.
  intros W Hc NH HI. pose proof (kind_eq c Hc) as KE. unfold kind_of in KE. unfold Z80Model.run, rest. rewrite tab_00_eq by exact Hc.
  destruct NH as [NH0 NH2].
  destruct (Z.eqb_spec c 203) as [E|N1]; [|destruct (Z.eqb_spec c 237) as [E|N2]; [|destruct ((c =? 221) || (c =? 253)) eqn:E] ].
  - destruct (decode c); try discriminate KE; [|destruct iy; discriminate KE]. rewrite NH0 by tauto.
    destruct (fetch_eq dum s W) as (E1 & E2 & W1 & B & EF). destruct (fetch dum s) as [c2 s1]. destruct (next8 (abs s)) as [c2' x1].
    cbn [fst snd] in *. subst c2' x1. split; [reflexivity|]. intros _. cbn [effect]. apply cb_eq; assumption.
  - destruct (decode c); try discriminate KE; [destruct iy; discriminate KE|]. rewrite NH0 by tauto.
    assert (EPC : PC (snd (fetch dum s)) = w (PC s + 1)) by reflexivity.
    destruct (fetch_eq dum s W) as (E1 & E2 & W1 & B & EF). destruct (fetch dum s) as [c2 s1]. destruct (next8 (abs s)) as [c2' x1].
    cbn [fst snd] in *. subst c2' x1. rewrite tab_ed_eq by exact B. pose proof (code_ed_ok c2 B) as OK. unfold code_ed in *.
    destruct (kind_ed c2 B) as [-> | (o & E3 & K)].
    + split; [reflexivity|]. intros _. apply agree_eq. reflexivity.
    + rewrite E3 in *. split; [apply exec_res, K|]. intros D. cbn [effect deviates deviates_flags] in *.
      apply exec_eq; try tauto. intros _. rewrite HI, EPC, w_w_sub. f_equal. lia.
  - assert (KX : decode c = PXD (c =? 253)).
    { destruct (Z.eqb_spec c 221) as [-> |]; [reflexivity|]. destruct (Z.eqb_spec c 253) as [-> |]; [reflexivity|]. discriminate E. }
    rewrite KX. rewrite NH0 by lia. set (y := c =? 253).
    assert (EPC : PC (snd (fetch dum s)) = w (PC s + 1)) by reflexivity.
    assert (EC2 : fst (fetch dum s) = mem s (PC s)) by (cbn [fetch fst]; rewrite rd_mm by apply wf_PC, W; reflexivity).
    destruct (fetch_eq dum s W) as (E1 & E2 & W1 & B & EF). destruct (fetch dum s) as [c2 s1]. destruct (next8 (abs s)) as [c2' x1].
    cbn [fst snd] in *. subst c2' x1. rewrite tab_xd_eq by exact B. pose proof (code_xd_ok c2 B) as OK. unfold code_xd in *.
    assert (E203 : indexed c2 = Some PXCB -> c2 = 203).
    { intros EI. assert (S := map_at (fun c => c =? 203) (fun c => match indexed c with Some PXCB => true | _ => false end) ltac:(vm_compute; reflexivity) c2 B).
      cbv beta in S. rewrite EI in S. lia. }
    destruct (kind_xd c2 B) as [-> | [EI | (o & E3 & K)] ]; [|rewrite EI; specialize (E203 EI)|].
    + split; [reflexivity|]. intros _. apply agree_eq. reflexivity.
    + assert (EPC2 : PC (snd (fetch dum s1)) = w (PC s + 2)).
      { cbn [fetch snd PC set_PC]. rewrite EPC. change ((w (PC s + 1) + 1) mod 65536) with (w (w (PC s + 1) + 1)). rewrite w_w. f_equal. lia. }
      destruct (fetch_eq dum s1 W1) as (F1 & F2 & W2 & B2 & EF2). destruct (fetch dum s1) as [d s2]. destruct (next8 (abs s1)) as [d' x2].
      cbn [fst snd] in *. subst d' x2. rewrite EPC2, NH2; [|lia|rewrite <- EC2; exact E203].
      destruct (fetch_eq dum s2 W2) as (G1 & G2 & W3 & B3 & EF3). destruct (fetch dum s2) as [c3 s3]. destruct (next8 (abs s2)) as [c3' x3].
      cbn [fst snd] in *. subst c3' x3. split; [reflexivity|]. cbn [effect]. intros D.
      unfold disp. rewrite i8_sgn by exact B2. rewrite W_pairv. change ((pairv y XX (abs s3) + sgn d) mod 65536) with (w (pairv y XX (abs s3) + sgn d)).
      apply xcb_eq; try assumption. apply w_range.
    + rewrite E3 in *.
      assert (G : fst (exec y ipc o s1) = outcome (plain y o) /\
        (~ deviates (plain y o) (abs s1) -> agree (~ deviates_flags (plain y o) (abs s1)) (abs (snd (exec y ipc o s1))) (effect (plain y o) (abs s1)))).
      { split; [apply exec_res, K|]. intros D. cbn [effect deviates deviates_flags] in *.
        apply exec_eq; try tauto. intros H. destruct OK as (_ & _ & OK). rewrite OK in H. discriminate H. }
      destruct o; try discriminate K; exact G.
  - assert (K : kind (decode c) = 0).
    { rewrite KE. apply orb_false_iff in E. destruct E as [-> ->]. reflexivity. }
    assert (G : fst (exec false ipc (decode c) s) = outcome (plain false (decode c)) /\
        (~ deviates (plain false (decode c)) (abs s) -> agree (~ deviates_flags (plain false (decode c)) (abs s)) (abs (snd (exec false ipc (decode c) s))) (effect (plain false (decode c)) (abs s)))).
    { split; [apply exec_res, K|]. intros D. cbn [effect deviates deviates_flags] in *.
      destruct (decode_ok c Hc) as (O1 & O2 & O3). apply exec_eq; try tauto. intros H. rewrite O3 in H. discriminate H. }
    destruct (decode c); try discriminate K; try exact G. destruct iy; discriminate K.
Qed.
Definition unbroken (s : cpu) : Prop := hit (PC s) = false /\ forall k, In k (codes (abs s)) -> hit (w (PC s + k)) = false.
Lemma unbroken_quiet s s2 : unbroken s -> PC s2 = w (PC s + 1) -> mem s2 = mem s -> quiet (mem s (PC s)) s2.
Proof.
  intros [_ U] E1 E2. destruct (codes_in (abs s)) as [C1 C3]. cbn [mm pc abs] in C1, C3. split.
  - intros H. rewrite E1. apply U, C1, H.
  - intros H K. rewrite E1, E2 in *. rewrite w_w. replace (PC s + 1 + 2) with (PC s + 3) by lia. apply U, C3; [exact H|exact K].
Qed.
Lemma step_eq s : wf s -> unbroken s ->
  let '(i, x) := instr_at (abs s) in
  fst (step s) = outcome i /\
  (~ deviates i (count_r x) -> agree (~ deviates_flags i (count_r x)) (abs (snd (step s))) (effect i (count_r x))).
Proof.
  intros W NH. unfold Z80Model.step. rewrite instr_rest. pose proof (proj1 NH) as NH0.
  assert (EM : mem (snd (fetch dum s)) = mem s) by reflexivity.
  assert (EC : fst (fetch dum s) = mem s (PC s)) by (cbn [fetch fst]; rewrite rd_mm by apply wf_PC, W; reflexivity).
  rewrite NH0. assert (EPC : PC (snd (fetch dum s)) = w (PC s + 1)) by reflexivity.
  destruct (fetch_eq dum s W) as (E1 & E2 & W1 & B & EF). destruct (fetch dum s) as [c s1]. destruct (next8 (abs s)) as [c' x1].
  cbn [fst snd] in *. subst c' x1. cbn [rr set_ticks].
  set (s2 := set_ct false (set_ib false (set_rr (inc_R (rr s1)) (set_ticks (ticks s1 + 1) s1)))).
  assert (EA : abs s2 = count_r (abs s1)) by reflexivity.
  assert (W2 : wf s2) by (apply (wf_set_rr (inc_R (rr s1)) s1 W1), inc_R_byte, W1).
  pose proof (run_eq (PC s) c s2 W2 B) as RE. rewrite EA, rest_count in RE.
  destruct (rest c (abs s1)) as [i x]. cbn [fst snd] in RE.
  assert (P2 : PC s2 = w (PC s + 1)) by exact EPC.
  destruct RE as [HR HS].
  - rewrite EC. apply unbroken_quiet; [exact NH|exact P2|exact EM].
  - rewrite P2, w_w_sub. replace (PC s + 1 - 1) with (PC s) by lia. symmetry. apply w_id, wf_PC, W.
  - destruct (run (PC s) c s2) as [r s3]. split; [exact HR|]. exact HS.
Qed.
End Z.
