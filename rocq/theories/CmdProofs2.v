From Verif Require Import Base FioModel ChrModel CmdModel CmdSpec CmdProofs.

(** ** Tokens and parameters of a written command *)
Definition item_prm (i : item) : list param :=
  match i with IWord w => fst (word_param w) | IStr t => [PStr t] end.
Definition item_err (i : item) : list cerr :=
  match i with IWord w => snd (word_param w) | IStr _ => [] end.
Lemma items_acc_eq l a :
  items_acc a l = mkA (a_toks a ++ map (fun p => content (fst p)) l)
                      (a_prm a ++ flat_map (fun p => item_prm (fst p)) l) (a_redir a)
                      (a_err a ++ flat_map (fun p => item_err (fst p)) l).
Proof.
  revert a. induction l as [|[i s] l IH]; intros a; cbn [items_acc fold_left map flat_map].
  - destruct a; cbn. rewrite !app_nil_r. reflexivity.
  - change (fold_left (fun a p => item_acc a (fst p)) l (item_acc a (fst (i, s)))) with (items_acc (item_acc a i) l).
    rewrite IH. destruct i as [w|t]; cbn [item_acc fst content item_prm item_err add_word a_toks a_prm a_redir a_err];
      rewrite <- !app_assoc; reflexivity.
Qed.
Lemma line_toks c r : l_toks (line_of c r) = map (fun p => content (fst p)) (c_items c).
Proof. unfold line_of. cbn [l_toks]. rewrite items_acc_eq. reflexivity. Qed.
Lemma line_prm c r : l_prm (line_of c r) = flat_map (fun p => item_prm (fst p)) (c_items c).
Proof. unfold line_of. cbn [l_prm]. rewrite items_acc_eq. reflexivity. Qed.
Lemma line_err c r : l_err (line_of c r) = flat_map (fun p => item_err (fst p)) (c_items c).
Proof. unfold line_of. cbn [l_err]. rewrite items_acc_eq. reflexivity. Qed.
Lemma line_redir c r : l_redir (line_of c r) = [].
Proof. unfold line_of. cbn [l_redir]. rewrite items_acc_eq. reflexivity. Qed.

Definition xcmd (w : list Z) : command := mkCmd [] [120] [32] [(IWord w, [])].
Lemma xcmd_ok w : word w -> ok_command (xcmd w).
Proof.
  intros H. unfold ok_command, xcmd. cbn [c_lead c_word c_sep c_items ok_body ok_item].
  repeat split; try exact I; try (constructor; fail); try congruence; try (intros; discriminate).
  - constructor; [|constructor]. unfold wchar, delim. lia.
  - constructor; [|constructor]. unfold delim. lia.
  - exact (proj1 H).
  - apply (proj1 (proj2 H)).
  - apply H.
  - apply H.
  - apply H.
  - apply H.
Qed.
Lemma xcmd_parse w : word w -> parse (120 :: 32 :: w) = Ok (line_of (xcmd w) None).
Proof.
  intros H. unfold parse. pose proof (split_written (xcmd w) End None (xcmd_ok w H)) as E.
  unfold written, xcmd in E. cbn [c_lead c_word c_sep c_items body source tail app] in E.
  rewrite !app_nil_r in E. exact E.
Qed.
Lemma means_word w : word w -> means w (fst (word_param w)).
Proof.
  intros H. eexists. split; [apply xcmd_parse; exact H|].
  rewrite line_prm. cbn. apply app_nil_r.
Qed.
Lemma means_iff w ps : word w -> means w ps <-> ps = fst (word_param w).
Proof.
  intros H. split.
  - intros [l [E1 E2]]. rewrite xcmd_parse in E1 by exact H. injection E1 as <-.
    rewrite line_prm in E2. cbn in E2. rewrite app_nil_r in E2. congruence.
  - intros ->. apply means_word. exact H.
Qed.
Lemma means_error_word w e : word w -> fst (word_param w) = [] -> snd (word_param w) = [e] -> means_error w e.
Proof.
  intros H E1 E2. eexists. split; [apply xcmd_parse; exact H|].
  rewrite line_prm, line_err. cbn. rewrite E1, E2. auto.
Qed.

(** ** Numbers *)
Lemma digits_fold b ds cs acc :
  Forall2 (fun c d => digit_of c = d /\ d < b) cs ds ->
  digits b acc cs = fold_left (fun a d => a * b + d) ds acc.
Proof.
  intros H. revert acc. induction H as [|c d cs ds [H1 H2] H IH]; intros acc; [reflexivity|].
  cbn [digits fold_left]. rewrite H1. replace (d <? b) with true by lia. apply IH.
Qed.
Lemma digit_of_dec d : 0 <= d <= 9 -> digit_of (48 + d) = d.
Proof. intros H. unfold digit_of. replace ((48 <=? 48 + d) && (48 + d <=? 57)) with true by lia. lia. Qed.
Lemma digit_of_hex c d : hexchar c d -> digit_of c = d /\ d < 16.
Proof.
  intros [[H ->]|[H [-> | ->]]]; unfold digit_of.
  - replace ((48 <=? 48 + d) && (48 + d <=? 57)) with true by lia. lia.
  - replace ((48 <=? 87 + d) && (87 + d <=? 57)) with false by lia.
    replace ((65 <=? 87 + d) && (87 + d <=? 90)) with false by lia.
    replace ((97 <=? 87 + d) && (87 + d <=? 122)) with true by lia. lia.
  - replace ((48 <=? 55 + d) && (55 + d <=? 57)) with false by lia.
    replace ((65 <=? 55 + d) && (55 + d <=? 90)) with true by lia. lia.
Qed.
Lemma Forall2_map_dig b ds : 2 <= b <= 10 -> Forall (fun x => 0 <= x <= b - 1) ds ->
  Forall2 (fun c d => digit_of c = d /\ d < b) (map (Z.add 48) ds) ds.
Proof.
  intros Hb. induction 1 as [|d ds Hd H IH]; cbn [map]; constructor; [|exact IH].
  split; [apply digit_of_dec; lia|lia].
Qed.
Lemma number_mag s v : number s v -> strtol_mag s = v.
Proof.
  intros H. destruct H as [|d ds Hd H|ds H|x cs ds Hx Hn H].
  - reflexivity.
  - assert (Hne : 48 + d <> 48) by lia. cbn [map].
    assert (E : digits 10 0 (48 + d :: map (Z.add 48) ds) = value 10 (d :: ds)).
    { change (48 + d :: map (Z.add 48) ds) with (map (Z.add 48) (d :: ds)). unfold value. apply digits_fold.
      apply Forall2_map_dig; [lia|]. constructor; [lia|exact H]. }
    rewrite <- E.
    assert (G : forall c t, c <> 48 -> strtol_mag (c :: t) = digits 10 0 (c :: t)).
    { clear. intros c t Hc. unfold strtol_mag.
      destruct c as [|p|p]; try reflexivity.
      do 6 (destruct p as [p|p|]; try reflexivity). congruence. }
    apply G. exact Hne.
  - unfold value. rewrite <- (digits_fold 8 ds (map (Z.add 48) ds)) by (apply Forall2_map_dig; [lia|exact H]).
    destruct H as [|d ds Hd H]; [reflexivity|]. cbn [map strtol_mag].
    replace (48 + d =? 120) with false by lia. replace (48 + d =? 88) with false by lia. reflexivity.
  - unfold value. rewrite <- (digits_fold 16 ds cs).
    2:{ clear Hn. induction H; constructor; [apply digit_of_hex; assumption|assumption]. }
    cbn [strtol_mag]. destruct H as [|c d cs ds Hc H]; [congruence|].
    destruct (digit_of_hex _ _ Hc) as [E1 E2]. rewrite E1. replace (d <? 16) with true by lia.
    destruct Hx as [-> | ->]; reflexivity.
Qed.
Lemma number_hd s v : number s v -> 48 <= hd 0 s <= 57.
Proof. intros H. destruct H; cbn [hd map]; lia. Qed.
Lemma number_nonneg s v : number s v -> 0 <= v.
Proof.
  assert (G : forall b ds a, 0 <= b -> 0 <= a -> Forall (fun x => 0 <= x) ds ->
             0 <= fold_left (fun a d => a * b + d) ds a).
  { intros b ds. induction ds as [|d ds IH]; intros a Hb Ha H; cbn [fold_left]; [lia|].
    inversion H; subst. apply IH; [lia|nia|assumption]. }
  intros H. destruct H as [|d ds Hd H|ds H|x cs ds Hx Hn H]; unfold value; try lia.
  - apply G; [lia|lia|]. constructor; [lia|]. eapply Forall_impl; [|exact H]. cbv beta. lia.
  - apply G; [lia|lia|]. eapply Forall_impl; [|exact H]. cbv beta. lia.
  - apply G; [lia|lia|]. clear Hn. induction H as [|c d cs ds Hc]; constructor; [|assumption].
    destruct Hc as [[? _]|[? _]]; lia.
Qed.
Lemma strtol64_first s : 48 <= hd 0 s <= 57 -> strtol64 s = long (strtol_mag s).
Proof.
  destruct s as [|c t]; cbn [hd]; intros H; [lia|]. unfold strtol64, long. cbn [skip_blank].
  unfold is_blank. replace (c =? 32) with false by lia. replace ((9 <=? c) && (c <=? 13)) with false by lia.
  cbn [orb].
  assert (E : match c :: t with 45 :: t0 => - strtol_mag t0 | 43 :: t0 => strtol_mag t0 | _ => strtol_mag (c :: t) end = strtol_mag (c :: t)).
  { destruct c as [|p|p]; try lia. do 6 (destruct p as [p|p|]; try reflexivity; try lia). }
  rewrite E. reflexivity.
Qed.
Lemma strtol64_num s v : number s v -> strtol64 s = long v.
Proof. intros H. rewrite strtol64_first by (eapply number_hd; exact H). rewrite (number_mag s v H). reflexivity. Qed.
Lemma strtol64_neg s v : number s v -> strtol64 (45 :: s) = long (- v).
Proof. intros H. unfold strtol64, long. cbn [skip_blank is_blank orb]. cbn. rewrite (number_mag s v H). reflexivity. Qed.
Lemma strtol64_pos s v : number s v -> strtol64 (43 :: s) = long v.
Proof. intros H. unfold strtol64, long. cbn. rewrite (number_mag s v H). reflexivity. Qed.
Lemma dig10_mem c : memc dig10 c = true <-> 48 <= c <= 57.
Proof.
  rewrite memc_In. unfold dig10. cbn [In]. split; lia.
Qed.
Lemma strchr_dig c : c <> 0 -> ~ (48 <= c <= 57) -> strchr dig10 c = false.
Proof.
  intros H H1. unfold strchr. replace (c =? 0) with false by lia.
  destruct (memc dig10 c) eqn:E; [apply dig10_mem in E; lia|reflexivity].
Qed.
Lemma strchr_dig1 c : 48 <= c <= 57 -> strchr dig10 c = true.
Proof. intros H. unfold strchr. apply dig10_mem in H. rewrite H. apply orb_true_r. Qed.
(** symbols are made of characters that are not 0 *)
Lemma simple_reads s x : Forall (fun c => c <> 0) s -> reads s x -> simple_of s = x.
Proof.
  intros Hz H. destruct H as [s v H|s Hn Hd]; unfold simple_of.
  - rewrite strchr_dig1 by (eapply number_hd; exact H). rewrite (strtol64_num s v H). reflexivity.
  - rewrite strchr_dig; [reflexivity| |exact Hd]. destruct s as [|c t]; [congruence|].
    inversion Hz; assumption.
Qed.

(** ** Words *)
Lemma cut_none c s : ~ In c s -> cut_at c s = None.
Proof.
  induction s as [|x t IH]; intros H; cbn [cut_at]; [reflexivity|]. cbn [In] in H.
  replace (x =? c) with false by lia. rewrite IH by tauto. reflexivity.
Qed.
Lemma cut_some c s u : ~ In c s -> cut_at c (s ++ c :: u) = Some (s, u).
Proof.
  induction s as [|x t IH]; intros H; cbn [cut_at app].
  - rewrite Z.eqb_refl. reflexivity.
  - cbn [In] in H. replace (x =? c) with false by lia. rewrite IH by tauto. reflexivity.
Qed.
Lemma colon_first_yes s u : ~ In 93 s -> ~ In 58 s -> colon_first (s ++ 58 :: u) = true.
Proof.
  induction s as [|x t IH]; intros H1 H2; cbn [colon_first app]; [reflexivity|].
  cbn [In] in H1, H2. replace (x =? 93) with false by lia. replace (x =? 58) with false by lia.
  apply IH; tauto.
Qed.
Lemma colon_first_no s u : ~ In 93 s -> ~ In 58 s -> colon_first (s ++ 93 :: u) = false.
Proof.
  induction s as [|x t IH]; intros H1 H2; cbn [colon_first app]; [reflexivity|].
  cbn [In] in H1, H2. replace (x =? 93) with false by lia. replace (x =? 58) with false by lia.
  apply IH; tauto.
Qed.
Lemma has_app c s u : has c (s ++ c :: u) = true.
Proof. unfold has. apply memc_In. apply in_or_app. right. left. reflexivity. Qed.
Lemma has_not c s : ~ In c s -> has c s = false.
Proof. apply memc_false. Qed.

Lemma wp_plain w : ~ In 91 w -> (~ In 46 w \/ hd 0 w = 46) ->
  word_param w =
    match w with
    | 48 :: 98 :: t => ([P (PInt (s64 (bin_loop t 0)))], [])
    | _ => if strchr (dig10 ++ [45; 43]) (hd 0 w) then ([P (PInt (strtol64 w))], [])
           else ([P (PSym w)], [])
    end.
Proof.
  intros H1 H2. unfold word_param. rewrite cut_none by exact H1.
  destruct H2 as [H2|H2].
  - rewrite cut_none by exact H2. reflexivity.
  - destruct w as [|c t]; [cbn in H2; lia|]. cbn [hd] in H2. subst c. cbn [cut_at Z.eqb Pos.eqb]. reflexivity.
Qed.
Lemma number_chars s v : number s v -> ~ In 91 s /\ ~ In 46 s.
Proof.
  assert (G : forall k ds, 9 <= 9 -> k <= 9 -> Forall (fun x => 0 <= x <= k) ds ->
             forall c, In c (map (Z.add 48) ds) -> 48 <= c <= 57).
  { intros k ds _ Hk H c Hc. apply in_map_iff in Hc. destruct Hc as [d [<- Hd]].
    rewrite Forall_forall in H. specialize (H _ Hd). cbv beta in H. lia. }
  assert (K : (forall c, In c s -> c <> 91 /\ c <> 46) -> ~ In 91 s /\ ~ In 46 s).
  { intros H. split; intros Hi; apply H in Hi; lia. }
  intros H. apply K. clear K. destruct H as [|d ds Hd H|ds H|x cs ds Hx Hn H]; intros c Hc.
  - destruct Hc as [<-|[]]. lia.
  - assert (48 <= c <= 57); [|lia]. revert Hc. apply (G 9); [lia|lia|]. constructor; [lia|exact H].
  - destruct Hc as [<-|Hc]; [lia|]. assert (48 <= c <= 57); [|lia]. revert Hc. apply (G 7); [lia|lia|exact H].
  - destruct Hc as [<-|[<-|Hc]]; [lia|lia|]. clear Hn. induction H as [|a d cs ds Ha H IH]; [destruct Hc|].
    destruct Hc as [<-|Hc]; [|apply IH; exact Hc]. destruct Ha as [[? ?]|[? [?|?]]]; lia.
Qed.
Lemma strchr_num_first c : 48 <= c <= 57 \/ c = 45 \/ c = 43 -> strchr (dig10 ++ [45; 43]) c = true.
Proof.
  intros H. unfold strchr. apply orb_true_iff. right. apply memc_In. apply in_or_app.
  destruct H as [H|H]; [left; apply memc_In; apply dig10_mem; exact H|right; cbn [In]; lia].
Qed.
Lemma strchr_num_other c : c <> 0 -> ~ (48 <= c <= 57) -> c <> 45 -> c <> 43 -> strchr (dig10 ++ [45; 43]) c = false.
Proof.
  intros H0 H1 H2 H3. unfold strchr. replace (c =? 0) with false by lia. cbn [orb].
  apply memc_false. intros Hc. apply in_app_or in Hc. destruct Hc as [Hc|Hc].
  - apply memc_In, dig10_mem in Hc. tauto.
  - cbn [In] in Hc. lia.
Qed.
Lemma not_0b c t X Y : c <> 48 -> match c :: t with 48 :: 98 :: u => X u | _ => Y end = (Y : list param * list cerr).
Proof. intros H. destruct c as [|p|p]; try reflexivity. do 6 (destruct p as [p|p|]; try reflexivity). congruence. Qed.
Lemma wp_num s v : number s v -> word_param s = ([P (PInt (long v))], []).
Proof.
  intros H. destruct (number_chars s v H) as [N1 N2]. pose proof (number_hd s v H) as Hh.
  rewrite wp_plain by (auto). rewrite strchr_num_first by (left; exact Hh).
  rewrite (strtol64_num s v H). 
  destruct s as [|c t]; [reflexivity|]. destruct (Z.eq_dec c 48) as [->|Hc]; [|apply not_0b; exact Hc].
  destruct t as [|d u]; [reflexivity|].
  assert (Hd : d <> 98).
  { intros ->. remember (48 :: 98 :: u) as z eqn:Ez. destruct H as [|d ds Hd H|ds H|x cs ds Hx Hn H].
    - discriminate.
    - cbn [map] in Ez. assert (48 + d = 48) by congruence. lia.
    - destruct H as [|y ds Hy H]; [discriminate|]. cbn [map] in Ez. assert (48 + y = 98) by congruence. lia.
    - assert (x = 98) by congruence. lia. }
  clear - Hd. destruct d as [|p|p]; try reflexivity. do 7 (destruct p as [p|p|]; try reflexivity). congruence.
Qed.
Lemma wp_neg s v : number s v -> word_param (45 :: s) = ([P (PInt (long (- v)))], []).
Proof.
  intros H. destruct (number_chars s v H) as [N1 N2].
  rewrite wp_plain. 2:{ intros [?|?]; [lia|tauto]. } 2:{ left. intros [?|?]; [lia|tauto]. }
  cbn [hd]. rewrite strchr_num_first by tauto. rewrite (strtol64_neg s v H). reflexivity.
Qed.
Lemma wp_pos s v : number s v -> word_param (43 :: s) = ([P (PInt (long v))], []).
Proof.
  intros H. destruct (number_chars s v H) as [N1 N2].
  rewrite wp_plain. 2:{ intros [?|?]; [lia|tauto]. } 2:{ left. intros [?|?]; [lia|tauto]. }
  cbn [hd]. rewrite strchr_num_first by tauto. rewrite (strtol64_pos s v H). reflexivity.
Qed.
Lemma bin_loop_val bs : Forall (fun b => b = 0 \/ b = 1) bs -> forall a,
  bin_loop (map (Z.add 48) bs) a = fold_left (fun a d => a * 2 + d) bs a.
Proof.
  induction 1 as [|b bs Hb H IH]; intros a; cbn [map bin_loop fold_left]; [reflexivity|].
  replace ((48 + b =? 48) || (48 + b =? 49)) with true by lia. rewrite IH. f_equal.
  destruct Hb as [-> | ->]; cbn [Z.add Z.eqb Pos.add Pos.succ Pos.eqb]; lia.
Qed.
Lemma wp_bin bs : Forall (fun b => b = 0 \/ b = 1) bs ->
  word_param (48 :: 98 :: map (Z.add 48) bs) = ([P (PInt (s64 (value 2 bs)))], []).
Proof.
  intros H. assert (N : forall c, In c (map (Z.add 48) bs) -> c = 48 \/ c = 49).
  { intros c Hc. apply in_map_iff in Hc. destruct Hc as [d [<- Hd]]. rewrite Forall_forall in H.
    specialize (H d Hd). cbv beta in H. lia. }
  rewrite wp_plain.
  - rewrite bin_loop_val by exact H. reflexivity.
  - intros [?|[?|Hc]]; [lia|lia|]. apply N in Hc. lia.
  - left. intros [?|[?|Hc]]; [lia|lia|]. apply N in Hc. lia.
Qed.
Lemma wp_sym w : w <> [] -> Forall (fun c => c <> 0) w -> ~ In 91 w -> (~ In 46 w \/ hd 0 w = 46) ->
  ~ (48 <= hd 0 w <= 57) -> hd 0 w <> 45 -> hd 0 w <> 43 -> word_param w = ([P (PSym w)], []).
Proof.
  intros Hn Hz H1 H2 H3 H4 H5. rewrite wp_plain by assumption.
  destruct w as [|c t]; [congruence|]. cbn [hd] in *. etransitivity; [apply not_0b; lia|].
  rewrite strchr_num_other; [reflexivity| |assumption|assumption|assumption].
  inversion Hz; assumption.
Qed.
Lemma wp_bit b d : b <> [] -> ~ In 91 b -> ~ In 46 b -> d <> [] -> ~ In 91 d ->
  word_param (b ++ 46 :: d) = ([PBit (BS (simple_of b)) (simple_of d) None], []).
Proof.
  intros Hb H1 H2 Hd H3. unfold word_param. rewrite cut_none.
  2:{ intros Hc. apply in_app_or in Hc. destruct Hc as [Hc|[Hc|Hc]]; [tauto|lia|tauto]. }
  rewrite cut_some by exact H2. destruct b as [|c b]; [congruence|].
  unfold split_out_bit. cbn [andb]. unfold add_bit. destruct d; [congruence|reflexivity].
Qed.
Lemma wp_range b h l u : ~ In 91 b -> h <> [] -> ~ In 93 h -> ~ In 58 h -> ~ In 93 l ->
  word_param (b ++ 91 :: h ++ 58 :: l ++ 93 :: u) =
    ([PBit (BS (simple_of b)) (simple_of l) (Some (simple_of h))], []).
Proof.
  intros H1 Hh H2 H3 H4. unfold word_param. rewrite cut_some by exact H1.
  rewrite colon_first_yes by assumption. unfold split_out_bit. rewrite has_app. cbn [andb].
  unfold add_bit. rewrite cut_some by exact H3. rewrite cut_some by exact H4.
  destruct h; [congruence|reflexivity].
Qed.
Lemma wp_array b i : ~ In 91 b -> i <> [] -> ~ In 93 i -> ~ In 58 i ->
  word_param (b ++ 91 :: i ++ [93]) = ([PArr (simple_of b) (simple_of i)], []).
Proof.
  intros H1 Hi H2 H3. unfold word_param. rewrite cut_some by exact H1.
  rewrite colon_first_no by assumption. unfold split_out_array.
  rewrite cut_some by exact H2. destruct i; [congruence|reflexivity].
Qed.
Lemma wp_array_bit b i x d : ~ In 91 b -> i <> [] -> ~ In 93 i -> ~ In 58 i -> x = 46 \/ x = 91 ->
  d <> [] -> ~ In 58 d ->
  word_param (b ++ 91 :: i ++ 93 :: x :: d) =
    ([PBit (BA (simple_of b) (simple_of i)) (simple_of d) None], []).
Proof.
  intros H1 Hi H2 H3 Hx Hd H4. unfold word_param. rewrite cut_some by exact H1.
  rewrite colon_first_no by assumption. unfold split_out_array.
  rewrite cut_some by exact H2. rewrite has_not by exact H4.
  replace ((x =? 46) || (x =? 91)) with true by lia.
  destruct i; [congruence|]. destruct d; [congruence|]. reflexivity.
Qed.
Lemma wp_array_range b i x h l u : ~ In 91 b -> i <> [] -> ~ In 93 i -> ~ In 58 i -> x = 46 \/ x = 91 ->
  h <> [] -> ~ In 58 h -> ~ In 93 l ->
  word_param (b ++ 91 :: i ++ 93 :: x :: h ++ 58 :: l ++ 93 :: u) =
    ([PBit (BA (simple_of b) (simple_of i)) (simple_of l) (Some (simple_of h))], []).
Proof.
  intros H1 Hi H2 H3 Hx Hh H4 H5. unfold word_param. rewrite cut_some by exact H1.
  rewrite colon_first_no by assumption. unfold split_out_array.
  rewrite cut_some by exact H2. rewrite has_app.
  replace ((x =? 46) || (x =? 91)) with true by lia.
  destruct i; [congruence|]. unfold add_bit. rewrite cut_some by exact H4. rewrite cut_some by exact H5.
  destruct h; [congruence|]. reflexivity.
Qed.
Lemma add_bit_one d r b : r = has 58 d \/ r = false ->
  (exists p, add_bit d r b = ([p], [])) \/ (exists e, add_bit d r b = ([], [e])).
Proof.
  intros Hr. unfold add_bit. destruct r.
  - destruct Hr as [Hr|Hr]; [|discriminate]. 
    destruct (cut_at 58 d) as [[d1 c2]|] eqn:E.
    + destruct (cut_at 93 c2) as [[c2' u]|]; [|right; eexists; reflexivity].
      destruct d1; [right|left]; eexists; reflexivity.
    + exfalso. symmetry in Hr. unfold has in Hr. apply memc_In in Hr. revert Hr E. clear.
      induction d as [|x t IH]; cbn [In cut_at]; [tauto|]. intros Hi.
      destruct (x =? 58) eqn:Ex; [congruence|]. destruct (cut_at 58 t) as [[a b]|]; [congruence|].
      intros _. apply IH; [|reflexivity]. destruct Hi as [Hi|Hi]; [lia|exact Hi].
  - destruct d; [right|left]; eexists; reflexivity.
Qed.
Lemma colon_first_has d : colon_first d = true -> has 58 d = true.
Proof.
  induction d as [|c t IH]; cbn [colon_first]; [discriminate|].
  intros H. unfold has in *. apply memc_In. cbn [In].
  destruct (c =? 93); [discriminate|]. destruct (c =? 58) eqn:E; [left; lia|].
  right. apply memc_In. apply IH. exact H.
Qed.
Lemma word_param_one w :
  (exists p, word_param w = ([p], [])) \/ (exists e, word_param w = ([], [e])).
Proof.
  unfold word_param. destruct (cut_at 91 w) as [[b d]|].
  - destruct (colon_first d) eqn:E.
    + unfold split_out_bit. apply add_bit_one. left. reflexivity.
    + unfold split_out_array. destruct d as [|c t]; [right; eexists; reflexivity|].
      destruct (cut_at 93 (c :: t)) as [[i p]|]; [|right; eexists; reflexivity].
      destruct i; [right; eexists; reflexivity|]. destruct p as [|x q]; [left; eexists; reflexivity|].
      destruct ((x =? 46) || (x =? 91)); [|left; eexists; reflexivity].
      apply add_bit_one. left. reflexivity.
  - assert (G : (exists p, match w with
         | 48 :: 98 :: t => ([P (PInt (s64 (bin_loop t 0)))], [])
         | _ => if strchr (dig10 ++ [45; 43]) (hd 0 w) then ([P (PInt (strtol64 w))], [])
                else ([P (PSym w)], [])
         end = ([p], []) :> list param * list cerr)).
    { assert (K : exists p, (if strchr (dig10 ++ [45; 43]) (hd 0 w) then ([P (PInt (strtol64 w))], [])
                else ([P (PSym w)], [])) = ([p], []) :> list param * list cerr)
        by (destruct (strchr (dig10 ++ [45; 43]) (hd 0 w)); eexists; reflexivity).
      destruct w as [|c t]; [exact K|]. destruct (Z.eq_dec c 48) as [->|Hc].
      - destruct t as [|d u]; [exact K|]. destruct (Z.eq_dec d 98) as [->|Hd]; [eexists; reflexivity|].
        destruct K as [p K]. exists p. rewrite <- K. clear - Hd.
        destruct d as [|q|q]; try reflexivity. do 7 (destruct q as [q|q|]; try reflexivity). congruence.
      - destruct K as [p K]. exists p. rewrite <- K. apply not_0b. exact Hc. }
    destruct (cut_at 46 w) as [[b d]|]; [|left; exact G].
    destruct b as [|c b]; [left; exact G|].
    unfold split_out_bit. apply add_bit_one. right. reflexivity.
Qed.
