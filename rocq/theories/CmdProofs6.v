From Verif Require Import Base FioModel ChrModel CmdModel CmdSpec CmdProofs CmdProofs2 CmdProofs3 CmdProofs4 CmdProofs5.

Lemma not_repeat line l : line <> [] -> ~ In 10 line -> parse line = Ok l -> is_repeat l = false.
Proof.
  intros Hn N E. unfold parse, split in E. destruct line as [|x p]; [congruence|].
  rewrite strspn_skip in E. pose proof (suffix_skip (x :: p)) as Sk.
  destruct (skip_delims (x :: p)) as [|c t].
  { match type of E with Ok ?y = _ => assert (l = y) by congruence end. subst. reflexivity. }
  assert (Hc : c <> 10).
  { intros ->. apply N. eapply suffix_in; [exact Sk|left; reflexivity]. }
  replace (c =? 10) with false in E by lia.
  destruct (c =? 35).
  { match type of E with Ok ?y = _ => assert (l = y) by congruence end. subst. reflexivity. }
  destruct (c =? 59).
  { match type of E with Ok ?y = _ => assert (l = y) by congruence end. subst. reflexivity. }
  destruct (split_loop (S (length (c :: t))) (skip_delims (skipn (strcspn (c :: t) stops) (c :: t))) acc0)
    as [[a f]| |]; cbn [rbind] in E; try discriminate.
  match type of E with Ok ?y = _ => assert (l = y) by congruence end. subst. unfold is_repeat. cbn [l_name].
  destruct (strcspn (c :: t) stops); cbn [firstn]; [reflexivity|]. lia.
Qed.
Lemma input_exec : forall k inter set last line, (length line < k)%nat -> line <> [] -> ~ In 10 line ->
  rmap fst (input_loop k inter set last line) = exec set line.
Proof.
  induction k as [|k IH]; intros inter set last line H Hn N; [lia|].
  rewrite exec_unfold. cbn [input_loop]. destruct (parse line) as [l| |] eqn:E1; cbn [rbind rmap]; try reflexivity.
  rewrite (not_repeat line l Hn N E1).
  assert (Ec : match last with
     | Some i => if false && inter then (Some i, last) else (get_cmd (l_name l) set, None)
     | None => (get_cmd (l_name l) set, None)
     end = (get_cmd (l_name l) set, None)) by (destruct last; reflexivity).
  rewrite Ec. clear Ec.
  assert (Es : exists f : list event * cline -> option nat,
     (match get_cmd (l_name l) set with
           | Some i =>
               match nth_error set i with
               | Some c => w <- work c l ;; Ok (w, if crep c then Some i else None)
               | None => Ok (([], l), None)
               end
           | None => Ok ((no_cmd l, l), None)
           end) = (w <- step_cmd set l ;; Ok (w, f w))).
  { unfold step_cmd. destruct (get_cmd (l_name l) set) as [i|]; [|exists (fun _ => None); reflexivity].
    destruct (nth_error set i) as [c|]; [|exists (fun _ => None); reflexivity].
    exists (fun _ => if crep c then Some i else None). reflexivity. }
  destruct Es as [f Es]. rewrite Es. clear Es.
  destruct (step_cmd set l) as [[e l']| |] eqn:E2; cbn [rbind fst snd]; try reflexivity.
  destruct (rest_shorter _ _ _ _ _ E1 E2) as [D1 D2].
  destruct (rest_of l') as [|x t]; [reflexivity|]. destruct D1 as [D1|D1]; [discriminate|].
  rewrite <- (IH inter set (f (e, l')) (x :: t)); [|lia|discriminate|intros Hx; apply N; auto].
  destruct (input_loop k inter set (f (e, l')) (x :: t)) as [[e2 la]| |]; reflexivity.
Qed.
Lemma input_one inter set last c i id nm rp :
  ok_command c -> get_cmd (Some (c_word c)) set = Some i -> nth_error set i = Some (Leaf id nm rp) ->
  proc_input inter set last (written c) = Ok ([ERun id (line_of c None)], if rp then Some i else None).
Proof.
  intros H E1 E2. unfold proc_input. cbn [input_loop]. rewrite parse_plain by exact H. cbn [rbind].
  assert (R : is_repeat (line_of c None) = false).
  { unfold is_repeat. cbn [line_of l_name]. destruct H as [_ [Hn _]].
    destruct (cmdname_parts _ Hn) as [x [t [Ew [_ [Hx _]]]]]. rewrite Ew. lia. }
  rewrite R. cbn [line_of l_name]. rewrite E1.
  assert (Ec : match last with
     | Some i0 => if false && inter then (Some i0, last) else (Some i, None)
     | None => (Some i, None)
     end = (Some i, None)) by (destruct last; reflexivity).
  rewrite Ec. rewrite E2. reflexivity.
Qed.
Definition empty_line : cline := mkL [] (Some [10]) None [] [] [] [].
Lemma input_empty set i id nm rp : nth_error set i = Some (Leaf id nm rp) ->
  proc_input true set (Some i) [] = Ok ([ERun id empty_line], Some i).
Proof.
  intros E. unfold proc_input. cbn [length input_loop]. cbn [parse split rbind is_repeat l_name Z.eqb Pos.eqb andb].
  rewrite E. cbn [work rbind fst snd rest_of l_rest crep]. destruct rp; reflexivity.
Qed.
Lemma get_none set : (forall c, In c set -> cnames c <> []) -> get_cmd None set = None.
Proof.
  intros H. unfold get_cmd.
  assert (F : forall c, In c set -> forall b, name_match c None b = false).
  { intros c Hc b. cbn [name_match]. specialize (H c Hc). destruct (cnames c); [congruence|reflexivity]. }
  rewrite (proj2 (find_idx_none _ set)) by (intros; apply F; assumption).
  clear H. generalize 0%nat. induction set as [|c set IH]; intros k; [reflexivity|].
  cbn [loose]. rewrite (F c (or_introl eq_refl)). apply IH. intros; apply F; right; assumption.
Qed.
Lemma get_newline set : (forall c n, In c set -> In n (cnames c) -> hd 0 n <> 10) -> get_cmd (Some [10]) set = None.
Proof.
  intros H. unfold get_cmd.
  assert (F : forall c, In c set -> forall b, name_match c (Some [10]) b = false).
  { intros c Hc b. destruct (name_match c (Some [10]) b) eqn:E; [|reflexivity]. exfalso. destruct b.
    - apply match_strict in E. apply (H c [10] Hc E). reflexivity.
    - apply match_loose in E. destruct E as [x E]. apply (H c _ Hc E). reflexivity. }
  rewrite (proj2 (find_idx_none _ set)) by (intros; apply F; assumption).
  clear H. generalize 0%nat. induction set as [|c set IH]; intros k; [reflexivity|].
  cbn [loose]. rewrite (F c (or_introl eq_refl)). apply IH. intros; apply F; right; assumption.
Qed.
Lemma parse_blank s e : sep s -> s <> [] \/ e <> End ->
  exists l, parse (s ++ tail e) = Ok l /\ l_name l = None /\ l_rest l = match e with More t => Some t | _ => None end.
Proof.
  intros H D. unfold parse, split. destruct (s ++ tail e) as [|x p] eqn:E.
  { exfalso. destruct s; [|discriminate]. destruct D as [D|D]; [congruence|]. destruct e; cbn in E; congruence. }
  rewrite <- E. rewrite strspn_skip, skip_delims_app by exact H. rewrite skip_tail.
  destruct e as [|t|t]; cbn [tail]; eexists; split; try reflexivity; split; reflexivity.
Qed.
Lemma exec_blank set s e : sep s -> s <> [] \/ e <> End -> (forall c, In c set -> cnames c <> []) ->
  exec set (s ++ tail e) = match e with More (x :: t) => exec set (x :: t) | _ => Ok [] end.
Proof.
  intros H D Hs. rewrite exec_unfold. destruct (parse_blank s e H D) as [l [E1 [E2 E3]]].
  rewrite E1. cbn [rbind]. unfold step_cmd. rewrite E2, (get_none set Hs). cbn [rbind fst snd].
  unfold no_cmd. rewrite E2. unfold rest_of. rewrite E3. destruct e as [|t|[|x t]]; try reflexivity.
  destruct (exec set (x :: t)); reflexivity.
Qed.
Lemma exec_expression set c : ok_command c -> get_cmd (Some (c_word c)) set = None ->
  exec set (written c) = Ok [EEval (written c)].
Proof.
  intros H N. rewrite exec_unfold. pose proof (parse_plain c H) as E. rewrite E. cbn [rbind].
  unfold step_cmd. change (l_name (line_of c None)) with (Some (c_word c)). rewrite N. cbn [rbind fst snd].
  unfold no_cmd. change (l_name (line_of c None)) with (Some (c_word c)). change (l_cmd (line_of c None)) with (written c).
  change (rest_of (line_of c None)) with (@nil Z).
  destruct (written c) eqn:W; [|reflexivity].
  exfalso. unfold written in W. unfold ok_command, cmdname in H.
  destruct (c_word c) as [|x y] eqn:Ew; [|destruct (c_lead c); discriminate].
  destruct H as [_ [H _]]. cbn in H. tauto.
Qed.
Lemma input_blank inter set last s e : sep s -> s <> [] \/ e <> End -> (forall c, In c set -> cnames c <> []) ->
  match e with More (_ :: _) => False | _ => True end ->
  proc_input inter set last (s ++ tail e) = Ok ([], None).
Proof.
  intros H D Hs He. unfold proc_input. cbn [input_loop].
  destruct (parse_blank s e H D) as [l [E1 [E2 E3]]]. rewrite E1. cbn [rbind].
  assert (R : is_repeat l = false) by (unfold is_repeat; rewrite E2; reflexivity). rewrite R.
  rewrite E2, (get_none set Hs).
  assert (Ec : match last with
     | Some i0 => if false && inter then (Some i0, last) else (None, None)
     | None => (None, None)
     end = (None, None) :> option nat * option nat) by (destruct last; reflexivity).
  rewrite Ec. cbn [rbind fst snd]. unfold no_cmd. rewrite E2. unfold rest_of. rewrite E3.
  destruct e as [|t|[|x t]]; try reflexivity. destruct He.
Qed.
Lemma input_nothing inter set last : inter = false \/ last = None ->
  (forall c n, In c set -> In n (cnames c) -> hd 0 n <> 10) ->
  proc_input inter set last [] = Ok ([], None).
Proof.
  intros D Hs. unfold proc_input. cbn [length input_loop].
  cbn [parse split rbind is_repeat l_name Z.eqb Pos.eqb andb]. rewrite (get_newline set Hs).
  assert (Ec : match last with
     | Some i0 => if inter then (Some i0, last) else (None, None)
     | None => (None, None)
     end = (None, None) :> option nat * option nat).
  { destruct last; [|reflexivity]. destruct D as [->|D]; [reflexivity|discriminate]. }
  rewrite Ec. reflexivity.
Qed.
