From Verif Require Import Base Tm2Model Tm2Spec Tm2Proofs Tm2Proofs2 Tm2Proofs3 Tm2Proofs4.

Lemma times2_p1 f n : (forall x, p1 (snd (f x)) = p1 (snd x)) -> forall x, p1 (snd (times2 n f x)) = p1 (snd x).
Proof. intros H. induction n as [|n IH]; intros x; cbn [times2]; [reflexivity|]. rewrite IH. apply H. Qed.
Lemma count_up_p1 x : p1 (snd (count_up x)) = p1 (snd x).
Proof. destruct x as [t s]. unfold count_up. destruct (_ =? 0); [destruct (_ =? 0)|]; reflexivity. Qed.
Lemma count_down_p1 x : p1 (snd (count_down x)) = p1 (snd x).
Proof. destruct x as [t s]. unfold count_down. destruct (_ =? 255); destruct (_ <? _); reflexivity. Qed.
Lemma tick_down_p1 d s : inv d s -> md s = Down -> (ex_bit s = false -> reload_of s <= count_of s) ->
  let x := if ex_bit s then law_up (reload_of s) (count_of s) (counts 1 s) else law_down (reload_of s) (count_of s) (counts 1 s) in
  p1 (tick s) = if (0 <? snd x) && (ex_bit s || (0 <? reload_of s)) then Z.lxor (p1 s) 64 else p1 s.
Proof.
  intros I M RC. cbv zeta. unfold tick. rewrite M. unfold do_down, counts. pose proof (count_range d s I) as C. destruct (TR s) eqn:T; cbn [negb andb].
  2:{ destruct (ex_bit s) eqn:X; [rewrite up0 by lia|rewrite down0 by (apply RC; reflexivity)]; cbn [fst snd]; rewrite Z.ltb_irrefl; reflexivity. }
  unfold take. assert (E2 : exists s2, (if CT s then (T_edge s, set_edges 0 (ex_edge s) (ex_bit s) s) else (1, s)) = ((if CT s then T_edge s else 1), s2) /\ eff d s s2 (count_of s) (reload_of s) 0 false false (if CT s then 0 else T_edge s) (ex_edge s) /\ ex_bit s2 = ex_bit s /\ p1 s2 = p1 s).
  { destruct (CT s); [|exists s; split; [reflexivity|]; split; [apply eff_refl, I|split; reflexivity]]. eexists. split; [reflexivity|]. split; [|split; reflexivity]. eapply eff_edges; [apply eff_refl, I|lia|apply (i_xe _ _ I)]. }
  destruct E2 as (s2 & -> & E2 & XB & XP). pose proof (e_inv _ _ _ _ _ _ _ _ _ _ E2) as I2. set (n := if CT s then T_edge s else 1). assert (N : 0 <= n) by (unfold n; pose proof (i_te _ _ I); destruct (CT s); lia). rewrite XB.
  assert (G : forall t q, p1 q = p1 s -> p1 (if t : bool then set_p1 (Z.lxor (p1 q) bmEXF2) q else q) = if t then Z.lxor (p1 s) 64 else p1 s).
  { intros t q Q. destruct t; [|exact Q]. rewrite Q. cbn [set_p1 p1]. apply Z.mod_small, xor_byte; [apply (i_p1 _ _ I)|unfold byte, bmEXF2; lia]. }
  destruct (ex_bit s) eqn:X.
  - pose proof (up_times d (Z.to_nat n) false s2 I2) as [A U]. cbv zeta in A. rewrite Z2Nat.id in A by exact N. rewrite (e_rel _ _ _ _ _ _ _ _ _ _ E2), (e_cnt _ _ _ _ _ _ _ _ _ _ E2) in A.
    rewrite (pair_eta _ _ (times2 _ _ _)), A. cbn [orb]. rewrite andb_true_r. apply G. rewrite times2_p1 by apply count_up_p1. exact XP.
  - specialize (RC eq_refl). pose proof (down_times d (Z.to_nat n) false s2 I2) as DT. rewrite (e_rel _ _ _ _ _ _ _ _ _ _ E2), (e_cnt _ _ _ _ _ _ _ _ _ _ E2) in DT. specialize (DT RC). cbv zeta in DT. rewrite Z2Nat.id in DT by exact N. destruct DT as [A U].
    rewrite (pair_eta _ _ (times2 _ _ _)), A. cbn [orb]. apply G. rewrite times2_p1 by apply count_down_p1. exact XP.
Qed.
Lemma run_app s a b : run s (a ++ b) = run (run s a) b.
Proof. unfold run. apply fold_left_app. Qed.
Lemma forget_edges old s : T_edge s = T_edge old -> ex_edge s = ex_edge old -> let k := mode_eqb (md s) (md old) && Bool.eqb (TR s) (TR old) in
  T_edge (forget old s) = (if k then T_edge old else 0) /\ ex_edge (forget old s) = (if k then ex_edge old else 0).
Proof. intros A B. cbv zeta. unfold forget. destruct (mode_eqb _ _), (Bool.eqb _ _); cbn [negb orb andb set_edges T_edge ex_edge]; auto. Qed.
Lemma con_edges d n s : inv d s -> let s' := write_con n s in let k := mode_eqb (mode_by (n mod 256) false) (mode_by (t2con s) d) && Bool.eqb (bit (n mod 256) bTR2) (bit (t2con s) bTR2) in
  T_edge s' = (if k then T_edge s else 0) /\ ex_edge s' = (if k then ex_edge s else 0).
Proof.
  intros I. cbv zeta. pose proof (con_ok d n s I) as (I' & C & _). pose proof (i_md _ _ I') as M'. pose proof (i_tr _ _ I') as T'. rewrite C in M', T'. rewrite <- M', <- T', <- (i_md _ _ I), <- (i_tr _ _ I).
  unfold write_con. set (q := set_ctl _ _ _ _ s). change (T_edge (set_con n (forget s q))) with (T_edge (forget s q)). change (ex_edge (set_con n (forget s q))) with (ex_edge (forget s q)). change (TR (set_con n (forget s q))) with (TR (forget s q)). change (md (set_con n (forget s q))) with (md (forget s q)).
  pose proof (forget_edges s q eq_refl eq_refl) as F. cbv zeta in F. assert (TR (forget s q) = TR q /\ md (forget s q) = md q) as [-> ->] by (unfold forget; match goal with |- context [if ?c then set_edges _ _ _ _ else _] => destruct c end; split; reflexivity). exact F.
Qed.
Lemma mod_edges d v s : inv d s -> let s' := write_mod v s in let k := negb (bit v 0 && mode_eqb (mode_by (t2con s) d) Reload) in
  T_edge s' = (if k then T_edge s else 0) /\ ex_edge s' = (if k then ex_edge s else 0).
Proof.
  intros I. cbv zeta. rewrite <- (i_md _ _ I). unfold write_mod. set (q := set_ctl _ _ _ _ s). change (T_edge (set_mod v (forget s q))) with (T_edge (forget s q)). change (ex_edge (set_mod v (forget s q))) with (ex_edge (forget s q)).
  pose proof (forget_edges s q eq_refl eq_refl) as F. cbv zeta in F. change (TR q) with (TR s) in F. rewrite eqb_reflx, andb_true_r in F. change (md q) with (if has v 1 && mode_eqb (md s) Reload then Down else md s) in F. rewrite has1 in F. unfold bit. destruct F as [-> ->]. destruct (Z.testbit v 0), (md s); cbn [mode_eqb andb negb]; auto.
Qed.
