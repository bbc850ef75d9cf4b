(** Proofs about the extended MISC16: every access ends, and follows the table. *)
From Verif Require Import Base OiscModel OiscSpec OiscProofs.

Lemma rd5 f s : rd (S f) EM 5 s = Some (rp s, s). Proof. reflexivity. Qed.
Lemma rd6 f s : rd (S f) EM 6 s = rd f EM (rp s) (set_rp (u16 (rp s + 1)) s).
Proof. change (rd (S f) EM 6 s) with (match rd f EM (rp s) (set_rp (u16 (rp s + 1)) s) with Some (r', s') => Some (r', s') | None => None end). destruct (rd f EM _ _) as [[? ?]|]; reflexivity. Qed.
Lemma rd7 f s : rd (S f) EM 7 s = if ra s =? 7 then Some (ra s, s) else rd f EM (ra s) s.
Proof. change (rd (S f) EM 7 s) with (match (if ra s =? 7 then Some (ra s, s) else rd f EM (ra s) s) with Some (r', s') => Some (r', s') | None => None end). destruct (ra s =? 7); [reflexivity|]. destruct (rd f EM _ _) as [[? ?]|]; reflexivity. Qed.
Lemma rd10 f s : rd (S f) EM 10 s = rd f EM (ra s) (set_ra (u16 (ra s + 1)) s).
Proof. change (rd (S f) EM 10 s) with (match rd f EM (ra s) (set_ra (u16 (ra s + 1)) s) with Some (r', s') => Some (r', s') | None => None end). destruct (rd f EM _ _) as [[? ?]|]; reflexivity. Qed.
Definition ptr (a : Z) : Prop := a = 5 \/ a = 6 \/ a = 7 \/ a = 10.
Lemma ptr_dec a : {ptr a} + {a <> 5 /\ a <> 6 /\ a <> 7 /\ a <> 10}.
Proof. unfold ptr. destruct (Z.eq_dec a 5), (Z.eq_dec a 6), (Z.eq_dec a 7), (Z.eq_dec a 10); (left; lia) || (right; lia). Qed.
Lemma not_ptr a : a <> 5 /\ a <> 6 /\ a <> 7 /\ a <> 10 -> pointer EM a = false.
Proof. unfold pointer. lia. Qed.
Lemma is_em : is_misc EM. Proof. right. reflexivity. Qed.

(** ** reading *)
Definition same (s t : st) : Prop := pc t = pc s /\ rc t = rc s /\ rf t = rf s /\ mem t = mem s /\ shows t = shows s /\ tks t = tks s.
Lemma rd_em f : forall a s v t, wf s -> 0 <= a < 65536 -> rd f EM a s = Some (v, t) ->
  gives a (abs s) v (abs t) /\ wf t /\ 0 <= v < 65536 /\ same s t.
Proof.
  induction f as [|f IH]; intros a s v t W HA E; [discriminate E|]. assert (W' := W). destruct W' as (H1 & H2 & H3 & H4 & H5).
  assert (SR : same s s) by (unfold same; auto 10).
  destruct (ptr_dec a) as [[-> | [-> | [-> | ->]]] | N].
  - rewrite rd5 in E. injection E as <- <-. split; [apply (g_P (abs s))|]. auto.
  - rewrite rd6 in E. apply IH in E; [|apply wf_rp; [apply u16_range|exact W]|exact H4]. destruct E as (G & WT & V & S). split; [apply g_pop; exact G|]. auto.
  - rewrite rd7 in E. destruct (Z.eqb_spec (ra s) 7) as [Q | Q].
    + injection E as <- <-. rewrite Q. split; [apply (g_self (abs s)); exact Q|]. repeat split; try lia; apply W.
    + apply IH in E; [|exact W|exact H2]. destruct E as (G & R). split; [apply g_ind; [exact Q|exact G]|exact R].
  - rewrite rd10 in E. apply IH in E; [|apply wf_ra; [apply u16_range|exact W]|exact H2]. destruct E as (G & WT & V & S). split; [apply g_inc; exact G|]. auto.
  - rewrite rd_direct in E by (exact is_em || exact W || apply not_ptr, N). injection E as <- <-.
    split; [apply g_direct; unfold OiscSpec.W; lia|]. split; [exact W|]. split; [apply direct_w, W|exact SR].
Qed.
Lemma rd_plain f a s : a <> 6 -> a <> 7 -> a <> 10 -> rd (S f) EM a s <> None.
Proof.
  intros N1 N2 N3. cell a; try contradiction; try (cbn; discriminate).
  cbn [rd]. rewrite ops_high by (exact is_em || lia). discriminate.
Qed.
Ltac calc := repeat match goal with
  | |- context [u16 (Zpos ?k + 1)] => let v := eval vm_compute in (u16 (Zpos k + 1)) in change (u16 (Zpos k + 1)) with v
  | |- context [u16 (Zpos ?k - 1)] => let v := eval vm_compute in (u16 (Zpos k - 1)) in change (u16 (Zpos k - 1)) with v
  end.
Ltac pick x := destruct (Z.eq_dec x 6); [subst x|destruct (Z.eq_dec x 7); [subst x|destruct (Z.eq_dec x 10); [subst x|]]].
Ltac tr :=
  cbn [rp ra set_rp set_ra]; calc; cbv iota;
  match goal with
  | |- rd _ EM 6 _ <> None => rewrite rd6; tr
  | |- rd _ EM 7 _ <> None => rewrite rd7; tr
  | |- rd _ EM 10 _ <> None => rewrite rd10; tr
  | |- (if ?a =? 7 then _ else _) <> None => first [is_var a; destruct (Z.eqb_spec a 7); [discriminate|]; tr | let b := eval vm_compute in (a =? 7) in change (a =? 7) with b; tr]
  | |- Some _ <> None => discriminate
  | |- rd _ EM ?a _ <> None => first [is_var a; first [apply rd_plain; lia | pick a; tr] | apply rd_plain; lia]
  end.
Lemma rd_total a s : rd depth EM a s <> None.
Proof. unfold depth. destruct s as [p0 a0 c0 q0 f0 m0 n0 t0]. pick a; tr. Qed.
Lemma rd_em_ok a s : wf s -> 0 <= a < 65536 -> exists v t, rd depth EM a s = Some (v, t) /\ gives a (abs s) v (abs t) /\ wf t /\ 0 <= v < 65536 /\ same s t.
Proof.
  intros W HA. destruct (rd depth EM a s) as [[v t]|] eqn:E; [|destruct (rd_total a s E)]. exists v, t. split; [reflexivity|]. eapply rd_em; eassumption.
Qed.

(** ** writing *)
Definition kept (s t : st) : Prop := rf t = rf s /\ shows t = shows s /\ tks t = tks s.
Lemma wr5 f v s : wr (S f) EM 5 v s = Some (store 5 v (set_rp v s)). Proof. reflexivity. Qed.
Lemma wr6 f v s : wr (S f) EM 6 v s = option_map (store 6 v) (wr f EM (u16 (rp s - 1)) v (set_rp (u16 (rp s - 1)) s)).
Proof. cbn [wr ops Z.leb Z.compare Pos.compare Pos.compare_cont andb writes]. unfold ewrite. cbn [Z.eqb Pos.eqb]. cbv zeta. destruct (wr f EM _ _ _); reflexivity. Qed.
Lemma wr7 f v s : wr (S f) EM 7 v s = if ra s =? 7 then Some (store 7 v s) else option_map (store 7 v) (wr f EM (ra s) v s).
Proof. cbn [wr ops Z.leb Z.compare Pos.compare Pos.compare_cont andb writes]. unfold ewrite, mwrite. cbn [Z.eqb Pos.eqb]. destruct (ra s =? 7); [reflexivity|]. destruct (wr f EM _ _ _); reflexivity. Qed.
Lemma wr10 f v s : wr (S f) EM 10 v s = option_map (store 10 v) (wr f EM (ra s) v (set_ra (u16 (ra s + 1)) s)).
Proof. cbn [wr ops Z.leb Z.compare Pos.compare Pos.compare_cont andb writes]. unfold ewrite. cbn [Z.eqb Pos.eqb]. destruct (wr f EM _ _ _); reflexivity. Qed.
Lemma omap_some {X Y} (g : X -> Y) o y : option_map g o = Some y -> exists x, o = Some x /\ y = g x.
Proof. destruct o as [x|]; [|discriminate]. intros E. injection E as <-. eauto. Qed.
Lemma wr_em f : forall d v s t, wf s -> 0 <= d < 65536 -> 0 <= v < 65536 -> wr f EM d v s = Some t ->
  takes d v (abs s) (abs t) /\ wf t /\ kept s t.
Proof.
  induction f as [|f IH]; intros d v s t W HD V E; [discriminate E|]. assert (W' := W). destruct W' as (H1 & H2 & H3 & H4 & H5).
  assert (SR : kept s s) by (unfold kept; auto 10).
  destruct (ptr_dec d) as [[-> | [-> | [-> | ->]]] | N].
  - rewrite wr5 in E. injection E as <-. rewrite abs_store by exact V. split; [apply (t_P v (abs s))|]. split; [apply wf_store, wf_rp; assumption|exact SR].
  - rewrite wr6 in E. apply omap_some in E. destruct E as (x & E & ->).
    apply IH in E; [|apply wf_rp; [apply u16_range|exact W]|apply u16_range|exact V]. destruct E as (G & WT & S). rewrite abs_store by exact V.
    split; [apply t_push; exact G|]. split; [apply wf_store, WT|exact S].
  - rewrite wr7 in E. destruct (Z.eqb_spec (ra s) 7) as [Q | Q].
    + injection E as <-. rewrite abs_store by exact V. split; [apply t_self; exact Q|]. split; [apply wf_store, W|exact SR].
    + apply omap_some in E. destruct E as (x & E & ->). apply IH in E; [|exact W|exact H2|exact V]. destruct E as (G & WT & S). rewrite abs_store by exact V.
      split; [apply t_ind; [exact Q|exact G]|]. split; [apply wf_store, WT|exact S].
  - rewrite wr10 in E. apply omap_some in E. destruct E as (x & E & ->).
    apply IH in E; [|apply wf_ra; [apply u16_range|exact W]|exact H2|exact V]. destruct E as (G & WT & S). rewrite abs_store by exact V.
    split; [apply t_inc; exact G|]. split; [apply wf_store, WT|exact S].
  - destruct (wr_into f EM d v s is_em (not_ptr _ N) W V) as (t' & T & Q & WT & K). rewrite T in E. injection E as <-. rewrite Q.
    split; [apply t_into; unfold OiscSpec.W; lia|]. split; [exact WT|exact K].
Qed.
Lemma wr_plain f a v s : a <> 6 -> a <> 7 -> a <> 10 -> wr (S f) EM a v s <> None.
Proof.
  intros N1 N2 N3. cell a; try contradiction; try (cbn; discriminate).
  cbn [wr]. rewrite ops_high by (exact is_em || lia). discriminate.
Qed.
Lemma omap_none {X Y} (g : X -> Y) o : o <> None -> option_map g o <> None.
Proof. destruct o; [discriminate|contradiction]. Qed.
Ltac tw :=
  cbn [rp ra set_rp set_ra]; calc; cbv iota;
  match goal with
  | |- option_map _ _ <> None => apply omap_none; tw
  | |- wr _ EM 6 _ _ <> None => rewrite wr6; tw
  | |- wr _ EM 7 _ _ <> None => rewrite wr7; tw
  | |- wr _ EM 10 _ _ <> None => rewrite wr10; tw
  | |- (if ?a =? 7 then _ else _) <> None => first [is_var a; destruct (Z.eqb_spec a 7); [discriminate|]; tw | let b := eval vm_compute in (a =? 7) in change (a =? 7) with b; tw]
  | |- Some _ <> None => discriminate
  | |- wr _ EM (u16 (?p - 1)) _ _ <> None => first [apply wr_plain; lia | dec p]
  | |- wr _ EM ?a _ _ <> None => first [is_var a; first [apply wr_plain; lia | pick a; tw] | apply wr_plain; lia]
  end
with dec p :=
  let H := fresh "H" in
  destruct (Z.eq_dec (u16 (p - 1)) 6) as [H|H]; [rewrite !H; tw|let H2 := fresh "H" in destruct (Z.eq_dec (u16 (p - 1)) 7) as [H2|H2]; [rewrite !H2; tw|let H3 := fresh "H" in destruct (Z.eq_dec (u16 (p - 1)) 10) as [H3|H3]; [rewrite !H3; tw|apply wr_plain; lia]]].
Lemma wr_total a v s : wr depth EM a v s <> None.
Proof. unfold depth. destruct s as [p0 a0 c0 q0 f0 m0 n0 t0]. pick a; tw. Qed.
Lemma wr_em_ok d v s : wf s -> 0 <= d < 65536 -> 0 <= v < 65536 -> exists t, wr depth EM d v s = Some t /\ takes d v (abs s) (abs t) /\ wf t /\ kept s t.
Proof.
  intros W HD V. destruct (wr depth EM d v s) as [t|] eqn:E; [|destruct (wr_total d v s E)]. exists t. split; [reflexivity|]. eapply wr_em; eassumption.
Qed.

Lemma exec_em s : wf s -> exists t, exec EM s = Some t /\ moves (abs s) (abs t) /\ wf t /\ rf t = rf s /\ shows t = shows s /\ tks t = tks s + 4.
Proof.
  intros W. assert (W' := W). destruct W' as (H1 & _). unfold exec.
  destruct (rd_em_ok (pc s) s W H1) as (src & s1 & E1 & G1 & W1 & V1 & S1). rewrite E1. cbn [bind]. rewrite land_ffff.
  destruct (rd_em_ok ((pc s1 + 1) mod 65536) s1 W1 ltac:(lia)) as (dst & s2 & E2 & G2 & W2 & V2 & S2). rewrite E2. cbn [bind].
  destruct (rd_em_ok src s2 W2 V1) as (v & s3 & E3 & G3 & W3 & V3 & S3). rewrite E3. cbn [bind]. rewrite land_ffff.
  destruct (wr_em_ok dst v (set_pc ((pc s3 + 2) mod 65536) s3)) as (t & E4 & T & W4 & K); [apply wf_pc; [lia|exact W3]|exact V2|exact V3|]. rewrite E4. cbn [bind].
  eexists. split; [reflexivity|]. split; [|split; [apply wf_tks, W4|]].
  - exists src, (abs s1), dst, (abs s2), v, (abs s3). split; [exact G1|]. split; [exact G2|]. split; [exact G3|exact T].
  - unfold same, kept in *. cbn [rf shows tks set_tks]. cbn [rf shows tks set_pc] in K. destruct S1 as (_ & _ & ? & _ & ? & ?), S2 as (_ & _ & ? & _ & ? & ?), S3 as (_ & _ & ? & _ & ? & ?), K as (? & ? & ?).
    repeat split; congruence || lia.
Qed.

(** ** the table determines the result *)
Lemma gives_det a x v y : gives a x v y -> forall v' y', gives a x v' y' -> v' = v /\ y' = y.
Proof.
  induction 1; intros v' y' G; inversion G; subst; try contradiction; try lia; auto.
Qed.
Lemma takes_det d v x y : takes d v x y -> forall y', takes d v x y' -> y' = y.
Proof.
  induction 1; intros y' G; inversion G; subst; try contradiction; try lia; auto; f_equal; auto.
Qed.
Lemma moves_det x y z : moves x y -> moves x z -> z = y.
Proof.
  intros (s & x1 & d & x2 & v & x3 & A1 & A2 & A3 & A4) (s' & y1 & d' & y2 & v' & y3 & B1 & B2 & B3 & B4).
  destruct (gives_det _ _ _ _ A1 _ _ B1) as [-> ->]. destruct (gives_det _ _ _ _ A2 _ _ B2) as [-> ->]. destruct (gives_det _ _ _ _ A3 _ _ B3) as [-> ->].
  exact (takes_det _ _ _ _ A4 _ B4).
Qed.
