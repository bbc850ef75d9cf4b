(** C105: the watchdog. *)
From Verif Require Import Base WdtModel.

(** ** Specification *)
Fixpoint wcycles (l : list wop) : Z := match l with [] => 0 | WTick k :: t => k + wcycles t | _ :: t => wcycles t end.
(** in l nobody resets the chip, ticks do not go backwards and E1 is never written right after
    1E was stored; [c] is the value WDTRST holds before l *)
Fixpoint nofeed (c : Z) (l : list wop) : Prop :=
  match l with
  | [] => True
  | WTick k :: t => 0 <= k /\ nofeed c t
  | WWrite v :: t => ~ (c = 30 /\ v mod 256 = 225) /\ nofeed (v mod 256) t
  | WPoke v :: t => nofeed (v mod 256) t
  | WReset :: _ => False
  end.

Lemma off_stays l : forall s c, wdt s = -1 -> (cell s = c \/ cell s = 0) -> nofeed c l -> resets (wrun s l) = resets s.
Proof.
  induction l as [|o l IH]; intros s c W C N; [reflexivity|]. change (wrun s (o :: l)) with (wrun (wstep s o) l). destruct o; cbn [nofeed wstep] in *.
  - assert (E : wd_tick k s = s) by (unfold wd_tick; rewrite W; reflexivity). rewrite E. apply (IH s c); [exact W|exact C|apply N].
  - destruct N as [N1 N2]. rewrite (IH (wd_write v s) (v mod 256)); [reflexivity| |left; reflexivity|exact N2]. cbn [wd_write wdt]. destruct ((v mod 256 =? 225) && (cell s =? 30)) eqn:E; [|cbn [andb]; exact W]. exfalso. apply andb_prop in E. destruct E as [E1 E2]. apply Z.eqb_eq in E1. apply Z.eqb_eq in E2. destruct C as [C|C]; [apply N1; split; congruence|lia].
  - rewrite (IH (wd_poke v s) (v mod 256)); [reflexivity|exact W|left; reflexivity|exact N].
  - contradiction N.
Qed.
Lemma on_counts l : forall s, 0 <= wdt s <= 16383 -> nofeed (cell s) l -> resets (wrun s l) = resets s + (if 16383 <? wdt s + wcycles l then 1 else 0).
Proof.
  induction l as [|o l IH]; intros s W N; [cbn [wcycles]; replace (16383 <? wdt s + 0) with false by lia; cbn; lia|]. change (wrun s (o :: l)) with (wrun (wstep s o) l). destruct o; cbn [nofeed wstep wcycles] in *.
  - destruct N as [K N]. unfold wd_tick. replace (0 <=? wdt s) with true by lia. cbv zeta. destruct (Z.ltb_spec 16383 (wdt s + k)) as [H|H].
    + rewrite (off_stays l _ (cell s)); [|reflexivity|right; reflexivity|exact N]. cbn [wd_reset resets]. assert (0 <= wcycles l) by (clear - N; revert N; generalize (cell s); induction l as [|o l IH]; intros c N; [cbn; lia|]; destruct o; cbn [nofeed wcycles] in *; [destruct N as [N1 N2]; specialize (IH _ N2); lia|eapply IH; apply N|eapply IH; exact N|contradiction]). replace (16383 <? wdt s + (k + wcycles l)) with true by lia. reflexivity.
    + rewrite IH; cbn [wdt cell resets]; [|lia|exact N]. rewrite Z.add_assoc. reflexivity.
  - destruct N as [N1 N2]. assert (E : wdt (wd_write v s) = wdt s).
    { cbn [wd_write wdt]. destruct ((v mod 256 =? 225) && (cell s =? 30)) eqn:E; [|reflexivity]. exfalso. apply N1. apply andb_prop in E. destruct E as [E1 E2]. apply Z.eqb_eq in E1. apply Z.eqb_eq in E2. split; assumption. }
    rewrite IH; rewrite ?E; [reflexivity|exact W|exact N2].
  - rewrite IH; [reflexivity|exact W|exact N].
  - contradiction N.
Qed.

(** C105: writing 1E and then E1 to WDTRST starts the count from zero, whatever the state was:
    unless this is repeated (or the chip reset) the controller is reset, once, exactly if more
    than 16383 machine cycles pass *)
Theorem C105_fed : forall s a b l, a mod 256 = 30 -> b mod 256 = 225 -> nofeed 225 l ->
  resets (wrun s (WWrite a :: WWrite b :: l)) = resets s + (if 16383 <? wcycles l then 1 else 0).
Proof.
  intros s a b l A B N. change (wrun s (WWrite a :: WWrite b :: l)) with (wrun (wd_write b (wd_write a s)) l). set (q := wd_write b (wd_write a s)).
  assert (Q1 : wdt q = 0) by (unfold q; cbn [wd_write wdt cell written]; rewrite A, B; reflexivity). assert (Q2 : cell q = 225) by (unfold q; cbn [wd_write cell]; exact B).
  rewrite (on_counts l q); [rewrite Q1; reflexivity|lia|rewrite Q2; exact N].
Qed.
(** after a reset it is off, until E1 is written right after 1E was stored *)
Theorem C105_off : forall s l, nofeed 0 l -> resets (wrun s (WReset :: l)) = resets s.
Proof. intros s l N. change (wrun s (WReset :: l)) with (wrun (wd_reset (resets s)) l). rewrite (off_stays l _ 0); [reflexivity|reflexivity|left; reflexivity|exact N]. Qed.
(** a 1E stored by the user does not help the first write of the program after a reset *)
Theorem C105_first_write : forall s a b l, nofeed (b mod 256) l ->
  resets (wrun s (WReset :: WPoke a :: WWrite b :: l)) = resets s.
Proof.
  intros s a b l N. change (wrun s (WReset :: WPoke a :: WWrite b :: l)) with (wrun (wd_write b (wd_poke a (wd_reset (resets s)))) l). rewrite (off_stays l _ (b mod 256)); [reflexivity| |left; reflexivity|exact N]. cbn [wd_write wd_poke wd_reset wdt written]. rewrite andb_false_r. reflexivity.
Qed.
Print Assumptions C105_fed.
Print Assumptions C105_off.
Print Assumptions C105_first_write.

(** the hypotheses can be met: fed, other values written, then too long a pause; and fed in time *)
Example C105_ex : nofeed 225 [WTick 16000; WWrite 30; WTick 100; WWrite 0; WWrite 225; WTick 300] /\
  resets (wrun (wd_reset 0) [WWrite 30; WWrite 225; WTick 16000; WWrite 30; WTick 100; WWrite 0; WWrite 225; WTick 300]) = 1 /\
  resets (wrun (wd_reset 0) [WWrite 30; WWrite 225; WTick 16000; WWrite 30; WWrite 225; WTick 16383]) = 0.
Proof. split; [|split; vm_compute; reflexivity]. cbn [nofeed]. split; [lia|]. split; [intros [_ H]; discriminate|]. split; [lia|]. split; [intros [_ H]; discriminate|]. split; [intros [H _]; discriminate|]. split; [lia|exact I]. Qed.
