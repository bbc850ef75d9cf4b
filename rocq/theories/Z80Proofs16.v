(** Z80: stack round trips. *)
From Verif Require Import Base Z80Model Z80Spec Z80Proofs Z80Proofs2 Z80Proofs3 Z80Proofs4 Z80Proofs5 Z80Proofs6 Z80Proofs7 Z80Proofs8 Z80Proofs9 Z80Proofs10 Z80Proofs11 Z80Proofs15.

Lemma set2_back n v (g : Z -> Z) : v = 256 * g n + g (n + 1) -> byte (g (n + 1)) ->
  forall k, (if k =? n then v / 256 else if k =? n + 1 then v mod 256 else g k) = g k.
Proof.
  intros -> B k. unfold byte in B.
  assert (E1 : (256 * g n + g (n + 1)) / 256 = g n) by (symmetry; apply Z.div_unique with (r := g (n + 1)); lia).
  assert (E2 : (256 * g n + g (n + 1)) mod 256 = g (n + 1)) by (symmetry; apply Z.mod_unique with (q := g n); lia).
  destruct (Z.eqb_spec k n) as [-> |]; [exact E1|]. destruct (Z.eqb_spec k (n + 1)) as [-> |]; [exact E2|reflexivity].
Qed.
Lemma flags_byte g : flags_of (byte_of g) = g.
Proof. destruct g as [ [] [] [] [] [] [] [] []]; reflexivity. Qed.
Lemma byte_of_range g : byte (byte_of g).
Proof. unfold byte. destruct g as [ [] [] [] [] [] [] [] []]; cbn; lia. Qed.

Section Z.
Variable dum lim : Z.
Variable hit : Z -> bool.
Hypothesis HD : byte dum.
Notation step := (Z80Model.step dum lim hit).
Notation after := (Z80Spec.after dum lim hit).

Lemma two_cells (v b : Z) : word b -> w (b + 1) <> b.
Proof. unfold word, w. intros H. destruct (Z.eq_dec b 65535) as [-> |]; [discriminate|]. rewrite Z.mod_small by lia. lia. Qed.
Definition push_code (i : Z) := 197 + 16 * i.
Definition pop_code (i : Z) := 193 + 16 * i.
Lemma push_pop s i : wf s -> 0 <= i < 4 -> PC s < 65535 -> hit (PC s) = false -> hit (PC s + 1) = false ->
  mem s (PC s) = push_code i -> mem s (PC s + 1) = pop_code i -> SP s <> 1 ->
  PC s + 1 <> w (SP s - 1) -> PC s + 1 <> w (SP s - 2) ->
  let t := after 2 s in
  (forall k, rg t k = rg s k) /\ samef (f (abs t)) (f (abs s)) /\ IX t = IX s /\ IY t = IY s /\ SP t = SP s /\ PC t = w (PC s + 2) /\
  (forall a, a <> w (SP s - 1) -> a <> w (SP s - 2) -> mem t a = mem s a).
Proof.
  intros Wf Hi HP N0 N1 E1 E2 HS D1 D2. cbv zeta. pose proof (wf_PC s Wf) as HPC. unfold word in HPC.
  assert (HSP : word (SP s)) by apply Wf. unfold word in HSP.
  set (o1 := if i =? 3 then PUSHAF else PUSH (reg16 i)). set (o2 := if i =? 3 then POPAF else POP (reg16 i)).
  assert (I4 : i = 0 \/ i = 1 \/ i = 2 \/ i = 3) by lia.
  assert (DE1 : decode (mem s (PC s)) = o1) by (rewrite E1; destruct I4 as [-> |[-> |[-> | ->] ] ]; reflexivity).
  destruct (one_code dum lim hit s o1 Wf N0 DE1 ltac:(destruct I4 as [-> |[-> |[-> | ->] ] ]; reflexivity)) as [_ S1].
  set (x := count_r (s_pc (w (PC s + 1)) (abs s))) in *.
  destruct S1 as [SB1 SF1]; [destruct I4 as [-> |[-> |[-> | ->] ] ]; try exact HS; intros [] |].
  assert (SF1' := SF1 ltac:(destruct I4 as [-> |[-> |[-> | ->] ] ]; intros [])). clear SF1. rename SF1' into SF1.
  set (v := if i =? 3 then 256 * acc x + byte_of (f x) else pairv false (reg16 i) x).
  assert (ES : sem false o1 x = push v x) by (destruct I4 as [-> |[-> |[-> | ->] ] ]; reflexivity).
  rewrite ES in *. set (s1 := snd (step s)) in *.
  destruct SB1 as (Q1 & Q2 & Q3 & Q4 & Q5 & Q6 & Q7 & Q8 & _).
  assert (EP : PC s1 = PC s + 1). { refine (eq_trans Q5 _). change (pc (push v x)) with (w (PC s + 1)). apply w_id. unfold word. lia. }
  assert (ESP : SP s1 = w (SP s - 2)) by exact Q4.
  assert (EM : forall a, mem s1 a = mm (push v x) a) by exact Q6.
  set (b := w (SP s - 2)) in *. assert (HB : word b) by apply w_range.
  assert (EB1 : w (b + 1) = w (SP s - 1)) by (unfold b; rewrite w_w; f_equal; lia).
  assert (MP : forall a, mm (push v x) a = if a =? w (SP s - 1) then v / 256 else if a =? b then v mod 256 else mem s a).
  { intros a. unfold push. cbn [s_sp sp setm16 setm s_mm mm]. change (w (sp x - 2)) with b. rewrite EB1. reflexivity. }
  assert (W1 : wf s1) by (apply wf_step; [exact HD|exact Wf|fold s1; rewrite EP; unfold word; lia]).
  assert (DE2 : decode (mem s1 (PC s1)) = o2).
  { rewrite EM, EP, MP. destruct (Z.eqb_spec (PC s + 1) (w (SP s - 1))); [exfalso; lia|]. destruct (Z.eqb_spec (PC s + 1) b); [exfalso; lia|].
    rewrite E2. destruct I4 as [-> |[-> |[-> | ->] ] ]; reflexivity. }
  destruct (one_code dum lim hit s1 o2 W1 ltac:(rewrite EP; exact N1) DE2 ltac:(destruct I4 as [-> |[-> |[-> | ->] ] ]; reflexivity)) as [_ S2].
  assert (T2 : after 2 s = snd (step s1)) by reflexivity. rewrite T2. clear T2.
  set (x1 := count_r (s_pc (w (PC s1 + 1)) (abs s1))) in *.
  assert (SX : sp x1 = b) by exact ESP.
  assert (NB : b <> 65535). { unfold b, w. destruct (Z.eq_dec (SP s) 0) as [-> |]; [discriminate|]. rewrite Z.mod_small by lia. lia. }
  destruct S2 as [SB2 SF2]; [destruct I4 as [-> |[-> |[-> | ->] ] ]; try (cbn [o2 Z.eqb Pos.eqb reg16 differs]; rewrite SX; exact NB); intros [] |].
  assert (SF2' := SF2 ltac:(destruct I4 as [-> |[-> |[-> | ->] ] ]; intros [])). clear SF2. rename SF2' into SF2.
  assert (EV : m16 (sp x1) x1 = v).
  { rewrite SX. unfold m16. change (mm x1) with (mem s1). rewrite !EM, !MP, EB1. rewrite (Z.eqb_refl (w (SP s - 1))), (Z.eqb_refl b).
    destruct (Z.eqb_spec b (w (SP s - 1))) as [K|]; [exfalso; apply (two_cells 0 b HB); lia|]. pose proof (Z.div_mod v 256 ltac:(lia)). lia. }
  assert (E2S : sem false o2 x1 = let y := s_sp (w (b + 2)) x1 in if i =? 3 then setr 7 (v / 256) (s_f (flags_of (v mod 256)) y) else setpair false (reg16 i) v y).
  { cbv zeta. destruct I4 as [-> |[-> |[-> | ->] ] ]; cbn [o2 Z.eqb Pos.eqb reg16 sem pop]; rewrite EV, SX; reflexivity. }
  rewrite E2S in *. cbv zeta in *. clear E2S.
  assert (BSP : w (b + 2) = SP s). { unfold b. rewrite w_w. replace (SP s - 2 + 2) with (SP s) by lia. apply w_id. exact HSP. }
  rewrite BSP in *.
  destruct SB2 as (T1 & T2 & T3 & T4 & T5 & T6 & _).
  assert (R1 : forall k, r x1 k = rg s k) by (intros k; change (r x1 k) with (r (abs s1) k); rewrite Q1; reflexivity).
  assert (BR : forall k, byte (rg s k)) by (intros; apply Wf).
  split.
  { intros k. change (rg (snd (step s1)) k) with (r (abs (snd (step s1))) k). rewrite T1. rewrite <- R1.
    destruct I4 as [-> |[-> |[-> | ->] ] ]; cbn [Z.eqb Pos.eqb reg16 setpair set2 setr s_r r s_sp s_f].
    - apply (set2_back 0 v (r x1)); rewrite ?R1; [reflexivity|apply BR].
    - apply (set2_back 2 v (r x1)); rewrite ?R1; [reflexivity|apply BR].
    - apply (set2_back 4 v (r x1)); rewrite ?R1; [reflexivity|apply BR].
    - destruct (Z.eqb_spec k 7) as [-> |]; [|reflexivity]. rewrite R1. unfold v. cbn [Z.eqb Pos.eqb]. change (acc x) with (rg s 7).
      pose proof (byte_of_range (f x)) as K. unfold byte in K. symmetry. apply Z.div_unique with (r := byte_of (f x)); lia. }
  split.
  { destruct SF1 as (G1 & G2 & G3 & G4 & G5 & G6). destruct SF2 as (H1 & H2 & H3 & H4 & H5 & H6).
    assert (K : samef (f (if i =? 3 then setr 7 (v / 256) (s_f (flags_of (v mod 256)) (s_sp (SP s) x1)) else setpair false (reg16 i) v (s_sp (SP s) x1))) (f (abs s))).
    { destruct I4 as [-> |[-> |[-> | ->] ] ]; cbn [Z.eqb Pos.eqb reg16 setpair set2 setr s_r f s_sp s_f].
      - repeat split; assumption.
      - repeat split; assumption.
      - repeat split; assumption.
      - assert (EVM : v mod 256 = byte_of (f x)).
        { unfold v. cbn [Z.eqb Pos.eqb]. pose proof (byte_of_range (f x)) as K. unfold byte in K. symmetry. apply Z.mod_unique with (q := acc x); lia. }
        rewrite EVM, flags_byte. apply samef_refl. }
    destruct K as (K1 & K2 & K3 & K4 & K5 & K6). repeat split; congruence. }
  assert (PR : forall (g : M -> Z), (forall u y, g (s_r u y) = g y) -> (forall u y, g (s_f u y) = g y) ->
     g (if i =? 3 then setr 7 (v / 256) (s_f (flags_of (v mod 256)) (s_sp (SP s) x1)) else setpair false (reg16 i) v (s_sp (SP s) x1)) = g (s_sp (SP s) x1)).
  { intros g A1 A2. destruct I4 as [-> |[-> |[-> | ->] ] ]; cbn [Z.eqb Pos.eqb reg16 setpair]; unfold set2, setr; rewrite ?A1, ?A2; reflexivity. }
  split; [refine (eq_trans T2 _); rewrite (PR ix) by reflexivity; exact Q2|].
  split; [refine (eq_trans T3 _); rewrite (PR iy) by reflexivity; exact Q3|].
  split; [refine (eq_trans T4 _); rewrite (PR sp) by reflexivity; reflexivity|].
  split; [refine (eq_trans T5 _); rewrite (PR pc) by reflexivity; change (w (PC s1 + 1) = w (PC s + 2)); rewrite EP; f_equal; lia|].
  intros a A1 A2. refine (eq_trans (T6 a) _). rewrite (PR (fun q => mm q a)) by reflexivity. change (mem s1 a = mem s a). rewrite EM, MP.
  destruct (Z.eqb_spec a (w (SP s - 1))); [exfalso; auto|]. destruct (Z.eqb_spec a b); [exfalso; auto|reflexivity].
Qed.
(** the call *)
Lemma call_state s a n : wf s -> hit (PC s) = false -> calls s a n -> SP s <> 1 ->
  (n = 3 -> w (PC s + 1) <> w (SP s - 1) /\ w (PC s + 1) <> w (SP s - 2) /\ w (PC s + 2) <> w (SP s - 1) /\ w (PC s + 2) <> w (SP s - 2)) ->
  let t := snd (step s) in
  fst (step s) = GO /\ wf t /\ PC t = a /\ SP t = w (SP s - 2) /\ (forall k, rg t k = rg s k) /\ samef (f (abs t)) (f (abs s)) /\
  mem t (w (SP s - 2)) = w (PC s + n) mod 256 /\ mem t (w (SP s - 1)) = w (PC s + n) / 256 /\
  (forall b, b <> w (SP s - 1) -> b <> w (SP s - 2) -> mem t b = mem s b).
Proof.
  intros Wf N0 HC HS HD2. cbv zeta. pose proof (wf_PC s Wf) as HPC. unfold word in HPC.
  set (x := count_r (s_pc (w (PC s + 1)) (abs s))).
  assert (BM : forall b, byte (mem s b)) by (intros; apply Wf). unfold byte in BM.
  assert (G : fst (step s) = GO /\ same_but_flags (abs (snd (step s))) (s_pc a (push (w (PC s + n)) (s_pc (w (PC s + n)) x))) /\ samef (f (abs (snd (step s)))) (f (abs s)) /\ word a).
  { destruct HC as [(-> & C1 & C2)|(-> & i & Hi & C1 & ->)].
    - destruct (one_code dum lim hit s (CALL None) Wf N0 ltac:(rewrite C1; reflexivity) eq_refl) as [R1 S1]. fold x in S1. specialize (HD2 eq_refl).
      assert (EW : w (w (PC s + 1) + 1) = w (PC s + 2)) by (rewrite w_w; f_equal; lia).
      destruct S1 as [SB SF].
      { cbn [differs condo]. intros [_ [K|[K|K] ] ]; [exact (HS K)| |]; unfold on_stack in K; change (sp x) with (SP s) in K; change (pc x) with (w (PC s + 1)) in K; rewrite ?EW in K; tauto. }
      assert (ES : sem false (CALL None) x = s_pc a (push (w (PC s + 3)) (s_pc (w (PC s + 3)) x))).
      { cbn [sem next16 condo]. change (pc x) with (w (PC s + 1)). change (mm x) with (mem s). rewrite EW, C2. cbn [pc s_pc]. rewrite w_w. replace (PC s + 1 + 2) with (PC s + 3) by lia. reflexivity. }
      rewrite ES in *. split; [exact R1|]. split; [exact SB|]. split; [exact (SF (fun K => K))|].
      rewrite <- C2. unfold word. pose proof (BM (w (PC s + 1))). pose proof (BM (w (PC s + 2))). lia.
    - assert (ED : decode (mem s (PC s)) = RST (8 * i)).
      { rewrite C1. assert (K : i = 0 \/ i = 1 \/ i = 2 \/ i = 3 \/ i = 4 \/ i = 5 \/ i = 6 \/ i = 7) by lia.
        destruct K as [-> |[-> |[-> |[-> |[-> |[-> |[-> | ->] ] ] ] ] ] ]; reflexivity. }
      destruct (one_code dum lim hit s (RST (8 * i)) Wf N0 ED eq_refl) as [R1 [SB SF] ]; [exact HS|]. fold x in SB, SF.
      split; [exact R1|]. split; [exact SB|]. split; [exact (SF (fun K => K))|]. unfold word. lia. }
  destruct G as (G0 & (Q1 & Q2 & Q3 & Q4 & Q5 & Q6 & _) & GF & WA).
  set (v := w (PC s + n)) in *. set (b := w (SP s - 2)). assert (HB : word b) by apply w_range.
  assert (EB1 : w (b + 1) = w (SP s - 1)) by (unfold b; rewrite w_w; f_equal; lia).
  assert (MP : forall c, mem (snd (step s)) c = if c =? w (SP s - 1) then v / 256 else if c =? b then v mod 256 else mem s c).
  { intros c. refine (eq_trans (Q6 c) _). rewrite <- EB1. reflexivity. }
  split; [exact G0|]. split; [apply wf_step; [exact HD|exact Wf|change (PC (snd (step s))) with (pc (abs (snd (step s)))); rewrite Q5; exact WA]|].
  split; [exact Q5|]. split; [exact Q4|]. split; [intros k; change (rg (snd (step s)) k) with (r (abs (snd (step s))) k); rewrite Q1; reflexivity|].
  split; [exact GF|]. split.
  { rewrite MP. destruct (Z.eqb_spec b (w (SP s - 1))) as [K|]; [exfalso; apply (two_cells 0 b HB); lia|]. rewrite Z.eqb_refl. reflexivity. }
  split; [rewrite MP, Z.eqb_refl; reflexivity|].
  intros c A1 A2. rewrite MP. destruct (Z.eqb_spec c (w (SP s - 1))); [exfalso; auto|]. destruct (Z.eqb_spec c b); [exfalso; auto|reflexivity].
Qed.
Lemma ret_state u : wf u -> hit (PC u) = false -> mem u (PC u) = 201 -> SP u <> 65535 ->
  let t := snd (step u) in
  fst (step u) = GO /\ PC t = mem u (SP u) + 256 * mem u (w (SP u + 1)) /\ SP t = w (SP u + 2) /\
  (forall k, rg t k = rg u k) /\ samef (f (abs t)) (f (abs u)) /\ (forall b, mem t b = mem u b).
Proof.
  intros Wf N0 E HS. cbv zeta.
  destruct (one_code dum lim hit u (RET None) Wf N0 ltac:(rewrite E; reflexivity) eq_refl) as [R1 [SB SF] ]; [intros [_ K]; exact (HS K)|].
  specialize (SF (fun K => K)). destruct SB as (Q1 & Q2 & Q3 & Q4 & Q5 & Q6 & _).
  split; [exact R1|]. split; [exact Q5|]. split; [exact Q4|].
  split; [intros k; change (rg (snd (step u)) k) with (r (abs (snd (step u))) k); rewrite Q1; reflexivity|].
  split; [exact SF|]. intros b. exact (Q6 b).
Qed.
Lemma call_ret s a n u : wf s -> hit (PC s) = false -> calls s a n -> SP s <> 1 ->
  (n = 3 -> w (PC s + 1) <> w (SP s - 1) /\ w (PC s + 1) <> w (SP s - 2) /\ w (PC s + 2) <> w (SP s - 1) /\ w (PC s + 2) <> w (SP s - 2)) ->
  let t := snd (step s) in
  wf u -> hit (PC u) = false -> mem u (PC u) = 201 -> SP u = SP t -> mem u (SP t) = mem t (SP t) -> mem u (w (SP t + 1)) = mem t (w (SP t + 1)) ->
  PC t = a /\ PC (snd (step u)) = w (PC s + n) /\ SP (snd (step u)) = SP s.
Proof.
  intros Wf N0 HC HS HD2. cbv zeta. intros WU NU EU ESP EM1 EM2.
  destruct (call_state s a n Wf N0 HC HS HD2) as (_ & _ & P1 & P2 & _ & _ & M1 & M2 & _).
  assert (HSP : word (SP s)) by apply Wf. unfold word in HSP.
  assert (NB : SP u <> 65535).
  { rewrite ESP, P2. unfold w. destruct (Z.eq_dec (SP s) 0) as [-> |]; [discriminate|]. rewrite Z.mod_small by lia. lia. }
  destruct (ret_state u WU NU EU NB) as (_ & P3 & P4 & _). rewrite ESP in P3, P4. rewrite P2 in *.
  assert (EB1 : w (w (SP s - 2) + 1) = w (SP s - 1)) by (rewrite w_w; f_equal; lia). rewrite EB1 in *.
  split; [exact P1|]. rewrite P3, EM1, EM2, M1, M2. split; [pose proof (Z.div_mod (w (PC s + n)) 256 ltac:(lia)); lia|].
  rewrite P4, w_w. replace (SP s - 2 + 2) with (SP s) by lia. apply w_id. exact HSP.
Qed.
End Z.
