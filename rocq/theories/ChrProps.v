(** Properties of the string class. *)
From Verif Require Import Base FioModel ChrModel ChrSpec ChrObs ChrProofs ChrProofs2.

(** The ways an object starts: empty, a constant of the caller, a copy. *)
Definition start_const (s : list Z) : sobj := mkS (Some s) false.
Lemma const_rep s : text s -> rep (new_const s) (start_const s).
Proof. intros T. split; [reflexivity|]. cbn. eauto. Qed.
Lemma mops_rep g l : forall c o, rep c o -> sops_ok o l -> exists c', mops g c l = Ok c' /\ rep c' (sops o l).
Proof.
  induction l as [|p l IH]; intros c o R OK; [exists c; auto|]. destruct OK as [O1 O2]. cbn [mops sops].
  destruct (mop_ok (g (length l)) c o p R O1) as (c1 & E & R1). rewrite E. cbn [rbind]. apply IH; assumption.
Qed.

(** [made c o]: the object [c] is the result of operations on an empty string or on a
    constant, and [o] of the same operations on lists. *)
Inductive made (c : chars) (o : sobj) : Prop :=
| Made_null g l : sops_ok (mkS None false) l -> mops g new_null l = Ok c -> o = sops (mkS None false) l -> made c o
| Made_const g l s : text s -> sops_ok (start_const s) l -> mops g (new_const s) l = Ok c -> o = sops (start_const s) l -> made c o.
Lemma made_rep c o : made c o -> rep c o.
Proof.
  intros [g l OK M ->|g l s T OK M ->].
  - destruct (mops_rep g l _ _ rep_null OK) as (c' & E & R). rewrite M in E. injection E as <-. exact R.
  - destruct (mops_rep g l _ _ (const_rep s T) OK) as (c' & E & R). rewrite M in E. injection E as <-. exact R.
Qed.
Lemma made_const s : text s -> made (new_const s) (start_const s).
Proof. intros T. apply (Made_const _ _ (fun _ _ => 0) [] s T); [exact I|reflexivity|reflexivity]. Qed.

(* ================================================================== C72 *)
(** Whatever operations are applied, in whatever order, to an empty string or a constant
    of the caller: the value is that of the same operations on lists, and len() is its
    length. *)
Theorem C72_value : forall g l o c, (c = new_null /\ o = mkS None false) \/ (exists s, text s /\ c = new_const s /\ o = start_const s) ->
  sops_ok o l ->
  exists c', mops g c l = Ok c' /\ cval c' = Ok (sval (sops o l)) /\ clen c' = Z.of_nat (length (chars_of (sops o l))).
Proof.
  intros g l o c H OK. assert (R : rep c o) by (destruct H as [[-> ->]|(s & T & -> & ->)]; [apply rep_null|apply const_rep; exact T]).
  destruct (mops_rep g l c o R OK) as (c' & E & R'). exists c'. split; [exact E|]. split; [apply rep_val|apply rep_len]; exact R'.
Qed.
Definition ab : list op := [OAppend [32; 97; 98; 59]; OUpper; OAppendChar 99; OLtrim; OReplaceSet [59] 46; ORrip [99]; OKeep 1 2; OAppendN [120; 121; 122] 2].
Example C72_case : sops_ok (start_const [9; 55]) ab /\ sval (sops (start_const [9; 55]) ab) = Some [32; 65; 120; 121].
Proof. split; [|reflexivity]. repeat split; cbn; try lia; repeat constructor; try lia. Qed.
(** Outside these conditions: shortening a constant in place writes into it, and
    appending an object's own string to it reads freed memory. *)
Theorem C72_limits : forall g s, text s ->
  (forall d, rdrop (one_of [d]) s <> s -> rrip (new_const s) [d] = UB) /\
  (forall c, new_copy g (Some s) = Ok c -> append g c Self = UB) /\
  (exists c, append g (new_const s) Self = Ok c /\ cval c = Ok (Some (s ++ s))).
Proof.
  intros g s T. split; [|split].
  - intros d NE. unfold rrip, new_const, empty. cbn [cblk clen cown]. destruct s as [|x s] using rev_ind; [contradiction|]. clear IHs.
    rewrite app_length. cbn [length]. replace (_ =? 0) with false by lia. rewrite Nat2Z.id, Nat.add_1_r. cbn [rstrip_loop]. rewrite <- app_assoc. cbn [app].
    rewrite (mrd_ok s x _) by lia. cbn [rbind]. rewrite rdrop_snoc in NE. apply Forall_app in T. destruct T as [_ T]. inversion T; subst.
    change (strchr [d] x) with ((x =? 0) || one_of [d] x). destruct (one_of [d] x); [|contradiction]. rewrite orb_true_r. reflexivity.
  - intros c E. destruct (allocate_ok g s T) as (c0 & E0 & [O R] & _). unfold new_copy in E. rewrite E in E0. inversion E0; subst c0.
    cbn [sval mine] in R. destruct R as (_ & L & t & B). unfold append. rewrite B, (str_ok s t T). cbn [rbind]. rewrite O. cbn [sown mine].
    destruct (malloc_ok g (clen c + Z.of_nat (length s) + 1)) as (b & Em & Lb); [lia|]. rewrite Em. cbn [rbind].
    destruct (strcpy_ok b s) as (u & Eu & _); [lia|]. rewrite Eu. reflexivity.
  - destruct (append_ok g (new_const s) (start_const s) s (const_rep s T) T) as (c & E & R & _).
    exists c. split; [|apply (rep_val _ _ R)]. rewrite <- E. unfold append, new_const. cbn [cblk cown clen cpos]. rewrite (str_ok s [] T). reflexivity.
Qed.

(* ================================================================== C73 *)
(** rtrim removes the white space at the end of the value, but len() keeps the old
    length; on a constant with white space at its end it writes into the constant. *)
Theorem C73_rtrim_exact : forall g l o c s, (c = new_null /\ o = mkS None false) \/ (exists s, text s /\ c = new_const s /\ o = start_const s) ->
  sops_ok o l -> sval (sops o l) = Some s ->
  (sown (sops o l) = true \/ rdrop blank s = s ->
     exists c1 c2, mops g c l = Ok c1 /\ rtrim c1 = Ok c2 /\ cval c2 = Ok (Some (rdrop blank s)) /\ clen c2 = Z.of_nat (length s)) /\
  (sown (sops o l) = false -> rdrop blank s <> s -> exists c1, mops g c l = Ok c1 /\ rtrim c1 = UB).
Proof.
  intros g l o c s H OK S. assert (R : rep c o) by (destruct H as [[-> ->]|(q & T & -> & ->)]; [apply rep_null|apply const_rep; exact T]).
  destruct (mops_rep g l c o R OK) as (c1 & E & R1). split.
  - intros O. destruct (rtrim_ok c1 _ s R1 S) as (c2 & E2 & V & L); [rewrite (proj1 R1); exact O|]. exists c1, c2. auto.
  - intros O NE. exists c1. split; [exact E|]. apply (rtrim_const c1 _ s R1 S); [rewrite (proj1 R1); exact O|exact NE].
Qed.
Definition junk : nat -> Z := fun n => Z.of_nat n + 64.
(** after rtrim len() is wrong, appendn loses its text and replace extends the string *)
Theorem C73_rtrim_limit : exists c,
  (c0 <- new_copy junk (Some [97; 32; 32]) ;; rtrim c0) = Ok c /\ cval c = Ok (Some [97]) /\ clen c = 3 /\
  (c1 <- appendn junk c [98; 99] 2 ;; cval c1) = Ok (Some [97]) /\
  (c1 <- replace_set junk c [120] 121 ;; cval c1) = Ok (Some [97; 121; 121]).
Proof. eexists. split; [vm_compute; reflexivity|]. repeat split; vm_compute; reflexivity. Qed.

(* ================================================================== C74 *)
(** Searching, for objects that hold the strings [s] and [x]. *)
Theorem C74_search_exact : forall g1 g2 c cx o ox s x, made c o -> made cx ox -> chars_of o = s -> chars_of ox = x ->
  (exists b, starts_with c cx = Ok b /\ (b = true <-> x <> [] /\ exists t, s = x ++ t)) /\
  (exists b, contains c cx = Ok b /\ (b = true <-> x <> [] /\ exists n, occurs s x n)) /\
  (exists b, icontains g1 g2 c cx = Ok b /\ (b = true <-> x <> [] /\ exists n, occurs (map up s) (map up x) n)) /\
  (exists p, pos c cx = Ok p /\ (forall n, p = Z.of_nat n <-> x <> [] /\ first_occ s x n) /\ -1 <= p) /\
  (exists b, ends_with c cx = Ok b /\ (b = true <-> x <> [] /\ exists a, s = a ++ x /\ first_occ s x (length a))) /\
  (exists p, ipos g1 c cx = Ok p /\ (forall n, p = Z.of_nat n <-> x <> [] /\ first_occ (map up s) x n) /\ -1 <= p).
Proof.
  intros g1 g2 c cx o ox s x R Rx Es Ex. apply made_rep in R, Rx.
  pose proof (rep_empty _ _ R) as M. pose proof (rep_empty _ _ Rx) as Mx. rewrite Es in M. rewrite Ex in Mx.
  pose proof (rep_val _ _ R) as V. pose proof (rep_val _ _ Rx) as Vx.
  pose proof (rep_text _ _ R) as T. pose proof (rep_text _ _ Rx) as Tx. rewrite Es in T. rewrite Ex in Tx.
  unfold starts_with, contains, icontains, pos, ends_with, ipos. rewrite M, Mx, V, Vx.
  destruct x as [|x0 x'].
  { assert (Z1 : forall P : Prop, false = true <-> (@nil Z <> [] /\ P)) by (intros P; split; [discriminate|intros [A _]; contradiction]).
    assert (Z2 : forall P : nat -> Prop, (forall n, -1 = Z.of_nat n <-> (@nil Z <> [] /\ P n)) /\ -1 <= -1).
    { intros P. split; [|lia]. intros n. split; [lia|]. intros [A _]. contradiction. }
    replace (match s with [] => true | _ => false end || true) with true by (destruct s; reflexivity).
    destruct s; cbn [orb]; (split; [|split; [|split; [|split; [|split]]]]); eexists; (split; [reflexivity|]); first [apply Z1|apply Z2]. }
  set (x := x0 :: x') in *. assert (Nx : x <> []) by discriminate.
  assert (NO : s = [] -> forall n, ~ occurs s x n).
  { intros -> n (a & b & E & _). destruct a; discriminate. }
  destruct s as [|s0 s'].
  { cbn [orb]. specialize (NO eq_refl).
    assert (NM : forall n, ~ occurs (map up []) (map up x) n) by (intros n (a & b & E & _); destruct a; discriminate).
    split; [|split; [|split; [|split; [|split]]]]; eexists; (split; [reflexivity|]).
    - split; [discriminate|]. intros [_ (t & E)]. discriminate.
    - split; [discriminate|]. intros [_ (n & E)]. exfalso. exact (NO n E).
    - split; [discriminate|]. intros [_ (n & E)]. exfalso. exact (NM n E).
    - split; [|lia]. intros n. split; [lia|]. intros [_ [E _]]. exfalso. exact (NO n E).
    - split; [discriminate|]. intros [_ (a & E & _)]. destruct a; discriminate.
    - split; [|lia]. intros n. split; [lia|]. intros [_ [E _]]. exfalso. exact (NO n E). }
  set (s := s0 :: s') in *. cbn [orb rbind].
  unfold chars_of in Es, Ex. pose proof R as [_ RR]. pose proof Rx as [_ RRx].
  destruct (sval o) as [so|]; [|discriminate]. destruct (sval ox) as [sx|]; [|discriminate]. subst so sx. fold s in RR. fold x in RRx. fold s. fold x.
  destruct RR as (_ & L & t & B). destruct RRx as (_ & Lx & _).
  assert (PM : forall w, (forall n, (match strstr w x with None => -1 | Some n => Z.of_nat n end) = Z.of_nat n <-> x <> [] /\ first_occ w x n) /\ -1 <= match strstr w x with None => -1 | Some n => Z.of_nat n end).
  { intros w. destruct (strstr w x) as [m|] eqn:E.
    - apply strstr_some in E. split; [|lia]. intros n. split; [intros H; assert (m = n) by lia; subst; auto|]. intros [_ F]. f_equal. exact (first_uniq _ _ _ _ E F).
    - rewrite strstr_none in E. split; [|lia]. intros n. split; [lia|]. intros [_ [F _]]. exfalso. exact (E n F). }
  assert (UP : forall g q, text q -> exists cu, uppercase g (new_const q) = Ok cu /\ rep cu (mine (map up q))).
  { intros g q Tq. destruct (mop_ok g (new_const q) (start_const q) OUpper (const_rep q Tq) I) as (cu & E & Ru). exists cu. split; [exact E|exact Ru]. }
  split; [|split; [|split; [|split; [|split]]]].
  - eexists. split; [reflexivity|]. destruct (strstr s x) as [[|m]|] eqn:E.
    + apply strstr_some in E. destruct E as [E _]. apply occurs_0 in E. apply prefixb_ok in E. tauto.
    + apply strstr_some in E. destruct E as [_ E]. split; [discriminate|]. intros [_ H]. apply prefixb_ok, occurs_0 in H. specialize (E 0%nat H). lia.
    + rewrite strstr_none in E. split; [discriminate|]. intros [_ H]. apply prefixb_ok, occurs_0 in H. exfalso. exact (E _ H).
  - eexists. split; [reflexivity|]. destruct (strstr s x) as [m|] eqn:E.
    + apply strstr_some in E. destruct E as [E _]. split; [eauto|reflexivity].
    + rewrite strstr_none in E. split; [discriminate|]. intros [_ (n & H)]. exfalso. exact (E _ H).
  - destruct (UP g1 s T) as (c1 & E1 & R1). rewrite E1. cbn [rbind].
    destruct (allocate_ok g2 x Tx) as (n2 & En & Rn & _). unfold new_copy. rewrite En. cbn [rbind].
    destruct (mop_ok g2 n2 (mine x) OUpper Rn I) as (c2 & E2 & R2). cbn [mop sop] in E2, R2. rewrite E2. cbn [rbind].
    unfold contains. rewrite (rep_empty _ _ R1), (rep_empty _ _ R2), (rep_val _ _ R1), (rep_val _ _ R2). cbn [change mine sval chars_of map orb rbind s x].
    eexists. split; [reflexivity|]. fold x. change (up s0 :: map up s') with (map up s). change (up x0 :: map up x') with (map up x). destruct (strstr (map up s) (map up x)) as [m|] eqn:E.
    + apply strstr_some in E. destruct E as [E _]. split; [eauto|reflexivity].
    + rewrite strstr_none in E. split; [discriminate|]. intros [_ (n & H)]. exfalso. exact (E _ H).
  - eexists. split; [reflexivity|]. apply (PM s).
  - destruct (strstr s x) as [m|] eqn:E.
    + apply strstr_some in E. rewrite B. destruct E as [(a & b & Ea & La) Em]. subst m.
      assert (RD : mrd (s ++ 0 :: t) (Z.of_nat (length a) + clen cx) = Ok (hd 0 b)).
      { rewrite Ea. rewrite app_assoc, <- app_assoc. destruct b as [|b0 b]; cbn [app hd]; apply mrd_ok; rewrite app_length, Lx; lia. }
      fold s. rewrite RD. cbn [rbind]. eexists. split; [reflexivity|]. split.
      * intros H. split; [exact Nx|]. exists a. assert (b = []) as ->.
        { destruct b as [|b0 b]; [reflexivity|]. cbn [hd] in H. apply Z.eqb_eq in H. subst b0. unfold text in T. rewrite Ea in T. rewrite !Forall_app in T. destruct T as (_ & _ & T). inversion T. contradiction. }
        rewrite app_nil_r in Ea. split; [exact Ea|]. split; [exists a, []; rewrite app_nil_r; auto|exact Em].
      * intros [_ (a' & Ea' & [_ Fa])]. assert (LE : (length a' <= length a)%nat) by (apply Fa; exists a, b; auto).
        assert (LE2 : (length a <= length a')%nat) by (apply Em; exists a', []; rewrite app_nil_r; auto).
        assert (b = []) as ->; [|reflexivity]. apply (f_equal (@length Z)) in Ea. apply (f_equal (@length Z)) in Ea'. rewrite !app_length in *. destruct b; [reflexivity|cbn [length] in *; lia].
    + rewrite strstr_none in E. eexists. split; [reflexivity|]. split; [discriminate|]. intros [_ (a & _ & [F _])]. exfalso. exact (E _ F).
  - destruct (UP g1 s T) as (c1 & E1 & R1). rewrite E1. cbn [rbind]. rewrite (rep_val _ _ R1). cbn [mine sval rbind].
    eexists. split; [reflexivity|]. apply PM.
Qed.
Example C74_case : made (new_const [97; 98; 99]) (start_const [97; 98; 99]) /\ made (new_const [98]) (start_const [98]) /\ first_occ [97; 98; 99] [98] 1.
Proof.
  split; [apply made_const; repeat constructor; lia|]. split; [apply made_const; repeat constructor; lia|]. split; [exists [97], [99]; split; reflexivity|].
  intros m (a & b & E & L). destruct a; [cbn [app] in E; discriminate|cbn [length] in L; lia].
Qed.
Theorem C74_compare : forall c o s, made c o ->
  (exists b, equal c s = Ok b /\ (b = true <-> sval o = s)) /\
  (exists b, iequal c s = Ok b /\ (b = true <-> option_map (map up) (sval o) = option_map (map up) s)).
Proof.
  intros c o s R. apply made_rep in R. unfold equal, iequal. rewrite (rep_val _ _ R). cbn [rbind].
  assert (LE : forall a b, list_eqb a b = true <-> a = b).
  { induction a as [|x a IH]; intros [|y b]; cbn [list_eqb]; try (split; [discriminate|discriminate]); try tauto. rewrite andb_true_iff, Z.eqb_eq, IH. split; [intros [-> ->]; reflexivity|intros E; inversion E; auto]. }
  assert (IE : forall a b, iequal_loop a b = true <-> map up a = map up b).
  { induction a as [|x a IH]; intros [|y b]; cbn [iequal_loop map]; try (split; [discriminate|discriminate]); try tauto.
    change (toupper x) with (up x). change (toupper y) with (up y). destruct (Z.eqb_spec (up x) (up y)) as [E|E]; [rewrite IH, E; split; [intros ->; reflexivity|intros H; inversion H; reflexivity]|]. split; [discriminate|]. intros H. inversion H. contradiction. }
  split; (eexists; split; [reflexivity|]); destruct (sval o) as [a|], s as [b|]; cbn [option_map]; try (split; discriminate); try tauto.
  - rewrite LE. split; [intros ->; reflexivity|intros E; inversion E; reflexivity].
  - rewrite IE. split; [intros ->; reflexivity|intros E; inversion E; reflexivity].
Qed.
(** ends_with looks at the first occurrence only, ipos does not ignore the case of what
    it searches. *)
Theorem C74_limits : ends_with (new_const [97; 98; 97; 98]) (new_const [97; 98]) = Ok false /\
  ends_with (new_const [99; 97; 98]) (new_const [97; 98]) = Ok true /\
  ipos junk (new_const [72; 101; 108]) (new_const [101; 108]) = Ok (-1) /\
  ipos junk (new_const [72; 101; 108]) (new_const [69; 76]) = Ok 1.
Proof. vm_compute. auto. Qed.

(* ================================================================== C75 *)
(** Calling token again and again gives the words of the string in order, then null. *)
Theorem C75_tokens : forall g dl n c o, made c o -> dl <> [] ->
  let ws := words dl (chars_of o) in
  tokens g (start_parse c 0) dl n = Ok (map Some (firstn n ws) ++ repeat None (n - length ws)).
Proof.
  intros g dl n c o R N. apply made_rep in R. cbv zeta. apply (tokens_ok g dl n (start_parse c 0) o 0); [|exact N|reflexivity]. destruct R as [A B]. split; [exact A|exact B].
Qed.
Example C75_case : words [32; 44] [44; 97; 98; 32; 44; 99; 32] = [[97; 98]; [99]] /\ text [44; 97; 98; 32; 44; 99; 32] /\
  tokens junk (new_const [44; 97; 98; 32; 44; 99; 32]) [32; 44] 3 = Ok [Some [97; 98]; Some [99]; None].
Proof. split; [reflexivity|]. split; [repeat constructor; lia|]. vm_compute. reflexivity. Qed.
(** What the words of a string are: their concatenation is the string without the
    delimiters, no word is empty or contains a delimiter. *)
Theorem C75_words : forall dl s, concat (words dl s) = filter (fun c => negb (one_of dl c)) s /\
  Forall (fun w => w <> [] /\ Forall (fun c => one_of dl c = false) w) (words dl s).
Proof.
  intros dl s. unfold words. set (d := one_of dl).
  assert (G : forall s w, Forall (fun c => d c = false) w -> concat (words_aux d w s) = w ++ filter (fun c => negb (d c)) s /\ Forall (fun w => w <> [] /\ Forall (fun c => d c = false) w) (words_aux d w s)).
  { clear s. induction s as [|c s IH]; intros w Hw; cbn [words_aux filter].
    - destruct w; cbn; [auto|]. rewrite app_nil_r. split; [reflexivity|]. constructor; [split; [discriminate|exact Hw]|constructor].
    - destruct (d c) eqn:D; cbn [negb].
      + destruct w as [|w0 w]; [apply IH; constructor|]. destruct (IH [] ltac:(constructor)) as [A B]. cbn [concat]. rewrite A. split; [reflexivity|]. constructor; [split; [discriminate|exact Hw]|exact B].
      + destruct (IH (w ++ [c])) as [A B]; [apply Forall_app; split; [exact Hw|repeat constructor; exact D]|]. rewrite A, <- app_assoc. split; [reflexivity|exact B]. }
  apply (G s []). constructor.
Qed.

(* ================================================================== C76 *)
(** Numbers are read as written, in every notation, with and without a sign, as long as
    they fit 63 bits. *)
Theorem C76_toi : forall c o t v sg, made c o -> sval o = Some (sg ++ t) -> numeral t v -> v < 2 ^ 63 -> In sg [[]; [43]; [45]] ->
  toi c = Ok (match sg with [45] => - v | _ => v end).
Proof.
  intros c o t v sg R S N V I. apply made_rep in R. assert (0 <= v).
  { assert (NN : forall b ds, 0 <= b -> in_base b ds -> 0 <= value b 0 ds) by (intros b ds Hb H; apply value_nonneg; [lia| |exact Hb]; eapply Forall_impl; [|exact H]; intros d D; cbv beta in D; lia).
    destruct N as [u d ds H _|u ds H|u p b ds J H]; apply NN; try exact H; try lia.
    cbn [In] in J. repeat (destruct J as [E|J]; [injection E as <- <-; lia|]). contradiction. }
  apply (toi_sign c sg t v); [|exact N|lia|exact I]. destruct R as [A B]. split; [reflexivity|]. cbn [sval]. rewrite S in B. exact B.
Qed.
Example C76_case : numeral [48; 120; 49; 70] 31 /\ toi (new_const [45; 48; 120; 49; 70]) = Ok (-31) /\ numeral [48; 49; 48] 8.
Proof. split; [apply (N_pre true 120 16 [1; 15]); [cbn; tauto|repeat constructor; lia]|]. split; [vm_compute; reflexivity|]. apply (N_oct true [1; 0]). repeat constructor; lia. Qed.
(** htoi reads all characters as hexadecimal digits, others than digits as 0, modulo
    2^32; htoll stops at the first one that is no digit, modulo 2^64. *)
Theorem C76_hex : forall c o s, made c o -> sval o = Some s ->
  htoi c = Ok (value 16 0 (map (fun x => match hex_digit x with Some d => d | None => 0 end) s) mod 2 ^ 32) /\
  (forall ds rest, s = ds ++ rest -> Forall (fun x => hex_digit x <> None) ds -> match rest with [] => True | r :: _ => hex_digit r = None end ->
     htoll c = Ok (value 16 0 (map (fun x => match hex_digit x with Some d => d | None => 0 end) ds) mod 2 ^ 64)).
Proof.
  intros c o s R S. apply made_rep in R. unfold htoi, htoll. rewrite (rep_val _ _ R), S. cbn [rbind]. split.
  - f_equal. apply (htoi_loop_ok s 0). lia.
  - intros ds rest -> F E. f_equal. rewrite <- (Z.mod_0_l (2 ^ 64)) at 1 by lia. rewrite htoll_loop_ok by lia. f_equal. f_equal.
    clear R S c o. induction F as [|x ds X F IH]; cbn [app map].
    + destruct rest as [|r rest]; [reflexivity|]. cbn [hex_prefix]. rewrite E. reflexivity.
    + cbn [hex_prefix]. destruct (hex_digit x); [|contradiction]. rewrite IH. reflexivity.
Qed.

(* ================================================================== C77 *)
(** Replacing the first occurrence of a string: nothing happens if there is none; the
    result is as expected if the new string is not shorter, and memory past the end of
    an allocated block is overwritten if it is. *)
Theorem C77_replace_exact : forall g1 g2 c what wth o ow ot, made c o -> made what ow -> made wth ot ->
  let s := chars_of o in let x := chars_of ow in let w := chars_of ot in
  (x = [] \/ (forall n, ~ occurs s x n) -> replace g1 g2 c what wth = Ok c) /\
  (forall a b, x <> [] -> s = a ++ x ++ b -> first_occ s x (length a) ->
     ((length w < length x)%nat -> replace g1 g2 c what wth = UB) /\
     ((length x <= length w)%nat -> exists c', replace g1 g2 c what wth = Ok c' /\ cval c' = Ok (Some (a ++ w ++ b)))).
Proof.
  intros g1 g2 c what wth o ow ot R Rx Rw. apply made_rep in R, Rx, Rw. destruct (replace_ok g1 g2 c what wth o ow ot R Rx Rw) as [A B]. cbv zeta in *. split; [exact A|].
  intros a b N E F. destruct (B a b N E F) as [B1 B2]. split; [exact B1|]. intros L. destruct (B2 L) as (c' & E' & R'). exists c'. split; [exact E'|]. apply (rep_val _ _ R').
Qed.
Example C77_case : (c <- replace junk junk (new_const [97; 46; 98]) (new_const [46]) (new_const [58; 58]) ;; cval c) = Ok (Some [97; 58; 58; 98]) /\
  replace junk junk (new_const [97; 58; 58; 98]) (new_const [58; 58]) (new_const [46]) = UB.
Proof. vm_compute. auto. Qed.

Print Assumptions C72_value.
Print Assumptions C72_limits.
Print Assumptions C73_rtrim_exact.
Print Assumptions C73_rtrim_limit.
Print Assumptions C74_search_exact.
Print Assumptions C74_compare.
Print Assumptions C74_limits.
Print Assumptions C75_tokens.
Print Assumptions C75_words.
Print Assumptions C76_toi.
Print Assumptions C76_hex.
Print Assumptions C77_replace_exact.
