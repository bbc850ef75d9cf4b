(** Properties C106 - C116 of the command interpreter. *)
From Verif Require Import Base FioModel ChrModel CmdModel CmdSpec CmdProofs CmdProofs2 CmdProofs3 CmdProofs4
  CmdProofs5 CmdProofs6.

(** set  1, 2 "a;b" abc *)
Definition ex_c : command :=
  mkCmd [32] [115; 101; 116] [32; 9]
    [(IWord [49], [44; 32]); (IWord [50], [32]); (IStr [97; 59; 98], []); (IWord [97; 98; 99], [])].
Lemma ex_c_ok : ok_command ex_c.
Proof.
  unfold ok_command, ex_c, cmdname, sep. cbn [c_lead c_word c_sep c_items ok_body ok_item hd].
  unfold word, sep, wchar, delim. cbn [hd In].
  assert (T : text [97; 59; 98]) by (repeat (apply text_char; [lia|lia|lia|lia|]); constructor).
  repeat split; try (repeat constructor; lia); try discriminate; try exact T; try lia; try congruence; intuition congruence.
Qed.

(** ** C106 *)
(** A command is its name and its items, whatever separators are between them; the text
    behind a # is ignored and the text behind a ; is left for later. *)
Theorem C106_words :
  forall c e, ok_command c ->
  exists l pss, parse (written c ++ tail e) = Ok l /\
    l_name l = Some (c_word c) /\
    l_toks l = map (fun p => content (fst p)) (c_items c) /\
    Forall2 (fun p ps => match fst p with IWord w => means w ps | IStr t => ps = [PStr t] end) (c_items c) pss /\
    l_prm l = concat pss /\
    l_cmd l = written c /\
    l_rest l = match e with More t => Some t | _ => None end /\
    l_redir l = [].
Proof.
  intros c e H. exists (line_of c (match e with More t => Some t | _ => None end)), (map (fun p => item_prm (fst p)) (c_items c)).
  split; [apply parse_written; exact H|]. split; [reflexivity|]. split; [apply line_toks|].
  split.
  - destruct H as [_ [_ [_ [Hb _]]]]. revert Hb. generalize (c_items c).
    induction l as [|[i s] l IH]; intros Hb; cbn [map]; constructor.
    + destruct Hb as [Hi _]. destruct i as [w|t]; cbn [fst item_prm]; [apply means_word; exact Hi|reflexivity].
    + apply IH. apply Hb.
  - split; [rewrite line_prm; apply flat_map_concat_map|]. split; [reflexivity|]. split; [reflexivity|apply line_redir].
Qed.
Print Assumptions C106_words.
Example C106_words_ex : parse (written ex_c ++ tail (More [32; 120])) =
  Ok (mkL (written ex_c) (Some [115; 101; 116]) (Some [32; 120]) [[49]; [50]; [97; 59; 98]; [97; 98; 99]]
          [P (PInt 1); P (PInt 2); PStr [97; 59; 98]; P (PSym [97; 98; 99])] [] []).
Proof. vm_compute. reflexivity. Qed.

(** A string whose closing quote is missing reaches to the end of the line, and is
    reported. *)
Theorem C106_unterminated :
  forall c s t, ok_command c -> sep s -> s <> [] ->
  ~ In 34 t -> ~ In 92 t -> ~ In 36 t ->
  exists l, parse (written c ++ s ++ 34 :: t) = Ok l /\
    l_name l = Some (c_word c) /\ l_toks l = map (fun p => content (fst p)) (c_items c) ++ [t] /\
    last (l_prm l) (P (PInt 0)) = PStr t /\ last (l_err l) EArray = EUnterminated /\ l_rest l = None.
Proof.
  intros c s t H Hs Hsn N1 N2 N3.
  assert (Sc : scan_str t = (t, [])).
  { clear N3. induction t as [|x t IH]; [reflexivity|]. cbn [In] in N1, N2. cbn [scan_str].
    replace (x =? 34) with false by lia. replace (x =? 92) with false by lia. rewrite IH by tauto. reflexivity. }
  unfold parse. rewrite (split_redir c s (34 :: t) (fun a => add_word a t [PStr t] [EUnterminated]) None H Hs).
  - eexists. split; [reflexivity|]. cbn [l_name l_toks l_prm l_err l_rest add_word a_toks a_prm a_err].
    split; [reflexivity|]. rewrite items_acc_eq. cbn [a_toks a_prm a_err acc0 app].
    split; [reflexivity|]. split; [apply last_last|]. split; [apply last_last|reflexivity].
  - intros _ E. apply app_eq_nil in E. tauto.
  - intros l p _. destruct (fst p); [|exact I]. intros E. apply app_eq_nil in E. tauto.
  - reflexivity.
  - discriminate.
  - intros a. unfold L. cbn [split_loop Z.eqb Pos.eqb]. rewrite Sc. cbn [fst snd tl app].
    rewrite expand_calm by (right; tauto). reflexivity.
Qed.
Print Assumptions C106_unterminated.
Example C106_unterminated_ex : parse (written ex_c ++ [32] ++ 34 :: [97; 59; 98]) =
  Ok (mkL (written ex_c ++ [32; 34; 97; 59; 98]) (Some [115; 101; 116]) None
          [[49]; [50]; [97; 59; 98]; [97; 98; 99]; [97; 59; 98]]
          [P (PInt 1); P (PInt 2); PStr [97; 59; 98]; P (PSym [97; 98; 99]); PStr [97; 59; 98]] [] [EUnterminated]).
Proof. vm_compute. reflexivity. Qed.

(** ** C107 *)
(** The commands of a line are run one after the other, each as if it were alone on the
    line. *)
Theorem C107_in_order :
  forall set c t, ok_command c -> quiet c \/ simple_cmd set (c_word c) ->
  exec set (written c ++ 59 :: t) =
  match exec set (written c), t with
  | Ok e, [] => Ok e
  | Ok e, _ => match exec set t with Ok e' => Ok (e ++ e') | r => r end
  | r, _ => r
  end.
Proof.
  intros set c t H D. rewrite exec_more by assumption.
  destruct (exec set (written c)) as [e| |]; cbn [rbind]; try reflexivity.
Qed.
Print Assumptions C107_in_order.
Definition ex_set : list cmd :=
  [Leaf 1 [[115; 101; 116]] true;
   Super 2 [[105; 110; 102; 111]] false [Leaf 3 [[114; 101; 103]; [99; 112; 117]] false; Leaf 4 [no_parameters] false]].
Example C107_in_order_ex : exec ex_set (written ex_c ++ 59 :: written ex_c) =
  Ok [ERun 1 (line_of ex_c None); ERun 1 (line_of ex_c None)].
Proof. vm_compute. reflexivity. Qed.

(** A comment changes nothing; separators, empty commands and comments do nothing. *)
Theorem C107_comment :
  forall set c t, ok_command c -> exec set (written c ++ 35 :: t) = exec set (written c).
Proof. exact exec_comment. Qed.
Print Assumptions C107_comment.
Example C107_comment_ex : exec ex_set (written ex_c ++ 35 :: [59; 115; 101; 116]) = Ok [ERun 1 (line_of ex_c None)].
Proof. vm_compute. reflexivity. Qed.

Theorem C107_blank :
  forall set s e, sep s -> s <> [] \/ e <> End -> (forall c, In c set -> cnames c <> []) ->
  exec set (s ++ tail e) = match e with More (x :: t) => exec set (x :: t) | _ => Ok [] end.
Proof. exact exec_blank. Qed.
Print Assumptions C107_blank.
Example C107_blank_ex : exec ex_set ([32] ++ tail (More (written ex_c))) = Ok [ERun 1 (line_of ex_c None)] /\
  exec ex_set ([32] ++ tail (Comment (written ex_c))) = Ok [].
Proof. split; vm_compute; reflexivity. Qed.

(** A line typed at a console runs the same commands as the same line in a program or
    a file, whatever was typed before. *)
Theorem C107_console_same :
  forall inter set last line, line <> [] -> ~ In 10 line ->
  match proc_input inter set last line with Ok r => Ok (fst r) | Exit => Exit | UB => UB end = exec set line.
Proof.
  intros inter set last line Hn N. rewrite <- (input_exec (S (length line)) inter set last line); [|lia|exact Hn|exact N].
  unfold proc_input. destruct (input_loop (S (length line)) inter set last line); reflexivity.
Qed.
Print Assumptions C107_console_same.
Example C107_console_same_ex :
  proc_input true ex_set (Some 1%nat) (written ex_c) = Ok ([ERun 1 (line_of ex_c None)], Some 0%nat).
Proof. vm_compute. reflexivity. Qed.

(** A semicolon inside a string that follows a composed command ends the command all the
    same, and the commands behind it are lost: "info "a;b" ; set 1" never runs set. *)
Theorem C107_string_after_super_deviation :
  exists line e, exec ex_set line = Ok e /\
    line = [105; 110; 102; 111; 32; 34; 97; 59; 98; 34; 32; 59; 32; 115; 101; 116; 32; 49] /\
    (forall l, ~ In (ERun 1 l) e).
Proof.
  eexists. eexists. split; [|split; [reflexivity|]].
  - vm_compute. reflexivity.
  - intros l H. cbn in H. intuition discriminate.
Qed.
Print Assumptions C107_string_after_super_deviation.

(** ** C108 *)
(** Every word becomes one parameter, or one error message and no parameter. *)
Theorem C108_one_or_error :
  forall w, word w -> (exists p, means w [p]) \/ (exists e, means_error w e).
Proof.
  intros w H. destruct (word_param_one w) as [[p E]|[e E]].
  - left. exists p. apply means_iff; [exact H|]. rewrite E. reflexivity.
  - right. exists e. apply means_error_word; [exact H| |]; rewrite E; reflexivity.
Qed.
Print Assumptions C108_one_or_error.
Example C108_one_or_error_ex : means [97; 91; 49; 93] [PArr (PSym [97]) (PInt 1)] /\ means_error [97; 91; 93] EIndex.
Proof.
  split.
  - eexists. split; [vm_compute; reflexivity|reflexivity].
  - eexists. split; [vm_compute; reflexivity|]. split; reflexivity.
Qed.

(** Numbers: decimal, octal with a leading 0, hexadecimal with 0x, with an optional sign,
    limited to 64 bits; binary with 0b. *)
Theorem C108_number :
  forall s v, number s v ->
  (word s -> means s [P (PInt (long v))]) /\
  (word (45 :: s) -> means (45 :: s) [P (PInt (long (- v)))]) /\
  (word (43 :: s) -> means (43 :: s) [P (PInt (long v))]).
Proof.
  intros s v H. split; [|split]; intros W; apply means_iff; try exact W.
  - rewrite (wp_num s v H). reflexivity.
  - rewrite (wp_neg s v H). reflexivity.
  - rewrite (wp_pos s v H). reflexivity.
Qed.
Print Assumptions C108_number.
Example C108_number_ex : number [48; 120; 49; 97] 26 /\ means [45; 48; 120; 49; 97] [P (PInt (-26))].
Proof.
  split.
  - apply (num_hex 120 [49; 97] [1; 10]); [tauto|discriminate|].
    constructor; [left; lia|]. constructor; [right; lia|constructor].
  - eexists. split; [vm_compute; reflexivity|reflexivity].
Qed.
Theorem C108_binary :
  forall bs, Forall (fun b => b = 0 \/ b = 1) bs -> word (48 :: 98 :: map (Z.add 48) bs) ->
  exists n, means (48 :: 98 :: map (Z.add 48) bs) [P (PInt n)] /\
    - 2 ^ 63 <= n < 2 ^ 63 /\ (n - value 2 bs) mod 2 ^ 64 = 0.
Proof.
  intros bs H W. exists (s64 (value 2 bs)). split; [apply means_iff; [exact W|rewrite wp_bin by exact H; reflexivity]|].
  unfold s64. split; lia.
Qed.
Print Assumptions C108_binary.
Example C108_binary_ex : means [48; 98; 49; 48; 49] [P (PInt 5)].
Proof. eexists. split; [vm_compute; reflexivity|reflexivity]. Qed.

(** Everything else without [ and . is a symbol. *)
Theorem C108_symbol :
  forall w, word w -> ~ In 91 w -> ~ In 46 w \/ hd 0 w = 46 ->
  ~ (48 <= hd 0 w <= 57) -> hd 0 w <> 45 -> hd 0 w <> 43 -> means w [P (PSym w)].
Proof.
  intros w W H1 H2 H3 H4 H5. apply means_iff; [exact W|]. rewrite wp_sym; try assumption; [reflexivity|apply W|].
  destruct W as [_ [W _]]. eapply Forall_impl; [|exact W]. intros c [Hc _]. exact Hc.
Qed.
Print Assumptions C108_symbol.
Example C108_symbol_ex : means [46; 97] [P (PSym [46; 97])].
Proof. eexists. split; [vm_compute; reflexivity|reflexivity]. Qed.

Lemma wnz w a b : word w -> w = a ++ b -> Forall (fun c => c <> 0) a /\ Forall (fun c => c <> 0) b.
Proof.
  intros [_ [W _]] E. subst. apply Forall_app in W. destruct W as [W1 W2].
  split; eapply Forall_impl; try eassumption; intros c [Hc _]; exact Hc.
Qed.
(** Bits: name.bit and name[high:low]; the name and the bits are numbers or symbols. *)
Theorem C108_bits :
  forall b x, reads b x -> ~ In 91 b ->
  (forall d y, reads d y -> d <> [] -> b <> [] -> ~ In 46 b -> ~ In 91 d -> word (b ++ 46 :: d) ->
     means (b ++ 46 :: d) [PBit (BS x) y None]) /\
  (forall h hv l lv, reads h hv -> reads l lv -> h <> [] -> ~ In 93 h -> ~ In 58 h -> ~ In 93 l ->
     word (b ++ 91 :: h ++ 58 :: l ++ [93]) ->
     means (b ++ 91 :: h ++ 58 :: l ++ [93]) [PBit (BS x) lv (Some hv)]).
Proof.
  intros b x Hb N. split.
  - intros d y Hd Hdn Hbn N1 N2 W. apply means_iff; [exact W|]. rewrite wp_bit by assumption. cbn [fst].
    destruct (wnz _ b (46 :: d) W eq_refl) as [Z1 Z2].
    rewrite (simple_reads b x Z1 Hb), (simple_reads d y); [reflexivity|inversion Z2; assumption|exact Hd].
  - intros h hv l lv Hh Hl Hn N1 N2 N3 W. apply means_iff; [exact W|]. rewrite wp_range by assumption. cbn [fst].
    destruct (wnz _ b _ W eq_refl) as [Z1 Z2]. inversion Z2 as [|? ? _ Z3]; subst.
    apply Forall_app in Z3. destruct Z3 as [Z3 Z4]. inversion Z4 as [|? ? _ Z5]; subst. apply Forall_app in Z5. destruct Z5 as [Z5 _].
    rewrite (simple_reads b x Z1 Hb), (simple_reads h hv Z3 Hh), (simple_reads l lv Z5 Hl). reflexivity.
Qed.
Print Assumptions C108_bits.
Example C108_bits_ex : means [97; 91; 55; 58; 52; 93] [PBit (BS (PSym [97])) (PInt 4) (Some (PInt 7))] /\
  means [97; 46; 55] [PBit (BS (PSym [97])) (PInt 7) None].
Proof. split; eexists; (split; [vm_compute; reflexivity|reflexivity]). Qed.

(** Array elements, and bits of them. *)
Theorem C108_arrays :
  forall b x i iv, reads b x -> reads i iv -> ~ In 91 b -> ~ In 93 i -> ~ In 58 i ->
  i <> [] ->
  (word (b ++ 91 :: i ++ [93]) -> means (b ++ 91 :: i ++ [93]) [PArr x iv]) /\
  (forall d y, reads d y -> d <> [] -> ~ In 58 d -> word (b ++ 91 :: i ++ 93 :: 46 :: d) ->
     means (b ++ 91 :: i ++ 93 :: 46 :: d) [PBit (BA x iv) y None]) /\
  (forall h hv l lv, reads h hv -> reads l lv -> h <> [] -> ~ In 58 h -> ~ In 93 l ->
     word (b ++ 91 :: i ++ 93 :: 91 :: h ++ 58 :: l ++ [93]) ->
     means (b ++ 91 :: i ++ 93 :: 91 :: h ++ 58 :: l ++ [93]) [PBit (BA x iv) lv (Some hv)]).
Proof.
  intros b x i iv Hb Hi N1 N2 N3 Hn.
  assert (G : forall u, word (b ++ 91 :: i ++ u) -> simple_of b = x /\ simple_of i = iv /\ Forall (fun c => c <> 0) u).
  { intros u W. destruct (wnz _ b _ W eq_refl) as [Z1 Z2]. inversion Z2 as [|? ? _ Z3]; subst.
    apply Forall_app in Z3. destruct Z3 as [Z3 Z4].
    split; [apply simple_reads; assumption|]. split; [apply simple_reads; assumption|exact Z4]. }
  split; [|split].
  - intros W. apply means_iff; [exact W|]. destruct (G _ W) as [G1 [G2 _]].
    rewrite wp_array by assumption. rewrite G1, G2. reflexivity.
  - intros d y Hd Hdn N4 W. apply means_iff; [exact W|]. destruct (G _ W) as [G1 [G2 G3]].
    rewrite wp_array_bit by (try assumption; tauto). rewrite G1, G2. cbn [fst].
    inversion G3 as [|? ? _ G4]; subst. inversion G4 as [|? ? _ G5]; subst.
    rewrite (simple_reads d y G5 Hd). reflexivity.
  - intros h hv l lv Hh Hl Hhn N4 N5 W. apply means_iff; [exact W|]. destruct (G _ W) as [G1 [G2 G3]].
    rewrite wp_array_range by (try assumption; tauto). rewrite G1, G2. cbn [fst].
    inversion G3 as [|? ? _ G4]; subst. inversion G4 as [|? ? _ G5]; subst.
    apply Forall_app in G5. destruct G5 as [G5 G6]. inversion G6 as [|? ? _ G7]; subst. apply Forall_app in G7. destruct G7 as [G7 _].
    rewrite (simple_reads h hv G5 Hh), (simple_reads l lv G7 Hl). reflexivity.
Qed.
Print Assumptions C108_arrays.
Example C108_arrays_ex : means [97; 91; 49; 93; 46; 55] [PBit (BA (PSym [97]) (PInt 1)) (PInt 7) None] /\
  reads [97] (PSym [97]) /\ reads [49] (PInt (long 1)).
Proof.
  split; [eexists; split; [vm_compute; reflexivity|reflexivity]|].
  split; [apply reads_sym; [discriminate|cbn; lia]|]. apply reads_num. apply (num_dec 1 []); [lia|constructor].
Qed.

(** ** C109 *)
(** Every sequence of bytes can be written in quotes, and a list of numbers and strings
    becomes the sequence of its values and bytes. *)
Theorem C109_data_list :
  forall l : list (Z + list Z),
  Forall (fun x => match x with inl n => True | inr bs => Forall (fun b => -128 <= b < 128) bs end) l ->
  data_list (map (fun x => match x with inl n => P (PInt n) | inr bs => PStr (quote bs) end) l) =
  Ok (flat_map (fun x => match x with inl n => [n mod 2 ^ 32] | inr bs => map (fun b => b mod 2 ^ 32) bs end) l).
Proof. exact data_items. Qed.
Print Assumptions C109_data_list.
Example C109_data_list_ex :
  data_list [P (PInt 300); PStr [97; 92; 48; 48; 48; 92; 34]; P (PInt (-1))] = Ok [300; 97; 0; 34; 4294967295].
Proof. vm_compute. reflexivity. Qed.
(** and such a string can be typed *)
Theorem C109_string_typed :
  forall bs, Forall (fun b => -128 <= b < 128) bs ->
  exists l, parse ([120; 32; 34] ++ quote bs ++ [34]) = Ok l /\ l_prm l = [PStr (quote bs)] /\
    data_list (l_prm l) = Ok (map (fun b => b mod 2 ^ 32) bs).
Proof.
  intros bs H. set (c := mkCmd [] [120] [32] [(IStr (quote bs), [])]).
  assert (Hc : ok_command c).
  { unfold ok_command, c, cmdname, sep. cbn [c_lead c_word c_sep c_items ok_body ok_item hd].
    pose proof (text_quote bs) as T. unfold sep, wchar, delim.
    repeat split; try (repeat constructor; lia); try discriminate; try exact T; try lia; try congruence. }
  pose proof (parse_plain c Hc) as E. unfold written, c in E. cbn [c_lead c_word c_sep c_items body source app] in E.
  rewrite !app_nil_r in E. eexists. split; [exact E|]. rewrite line_prm. cbn [c_items flat_map item_prm fst app].
  split; [reflexivity|]. cbn [data_list rbind]. rewrite unescape_quote by exact H. rewrite app_nil_r. reflexivity.
Qed.
Print Assumptions C109_string_typed.
Example C109_string_typed_ex : quote [0; 49; 34; 200 - 256] = [92; 48; 48; 48; 92; 49; 92; 34; -56].
Proof. reflexivity. Qed.
(** Without a backslash a string stands for itself. *)
Theorem C109_plain_string :
  forall s, ~ In 92 s -> data_list [PStr s] = Ok (map (fun b => b mod 2 ^ 32) s).
Proof. intros s H. cbn [data_list rbind]. rewrite unescape_plain by exact H. rewrite app_nil_r. reflexivity. Qed.
Print Assumptions C109_plain_string.
Example C109_plain_string_ex : data_list [PStr [97; 48]] = Ok [97; 48].
Proof. reflexivity. Qed.
(** Escapes: what a string with backslashes stands for. *)
Theorem C109_escapes :
  forall s bs, stands s bs -> data_list [PStr s] = Ok (map (fun b => b mod 2 ^ 32) bs).
Proof. intros s bs H. cbn [data_list rbind]. rewrite (unescape_stands s bs H). rewrite app_nil_r. reflexivity. Qed.
Print Assumptions C109_escapes.
(** \n \05678 \01750 \0: octal digits are taken as long as they come *)
Example C109_escapes_ex : stands [92; 110; 92; 48; 53; 54; 55; 56; 92; 48; 49; 55; 53; 48; 92; 48] [10; 119; 56; -24; 0].
Proof.
  apply st_named; [unfold named_escapes; cbn [In]; tauto|].
  apply (st_octal [5; 6; 7] 119); [repeat constructor; lia|cbn; lia|reflexivity|lia|reflexivity|].
  apply st_char; [lia|].
  apply (st_octal [1; 7; 5; 0] (-24)); [repeat constructor; lia|cbn; lia|reflexivity|lia|reflexivity|].
  apply (st_octal [] 0); [constructor|cbn; lia|reflexivity|lia|reflexivity|]. apply st_nil.
Qed.
(** A symbol in a list of data is not refused: a value that was never set is used. *)
Theorem C109_symbol_deviation :
  forall ps qs a s, data_list ps = Ok a -> data_list (ps ++ P (PSym s) :: qs) = UB.
Proof. exact data_symbol. Qed.
Print Assumptions C109_symbol_deviation.
Example C109_symbol_deviation_ex : data_list [P (PInt 1); P (PSym [97]); P (PInt 2)] = UB.
Proof. reflexivity. Qed.

(** ** C110 *)
(** A command is found by its full name (the first that has it), otherwise by a beginning
    of a name that only one command has. *)
Theorem C110_found :
  forall n set i, get_cmd (Some n) set = Some i <->
  (exists c, nth_error set i = Some c /\ named c n /\
     (forall j c', (j < i)%nat -> nth_error set j = Some c' -> ~ named c' n)) \/
  ((forall c, In c set -> ~ named c n) /\
   exists c, nth_error set i = Some c /\ named_like c n /\
     (forall j c', nth_error set j = Some c' -> named_like c' n -> j = i)).
Proof.
  intros n set i. unfold get_cmd.
  assert (NF : forall c, ~ named c n <-> name_match c (Some n) true = false).
  { intros c. rewrite <- match_strict. destruct (name_match c (Some n) true); split; congruence. }
  destruct (find_idx (fun c => name_match c (Some n) true) set) as [k|] eqn:E.
  - split.
    + intros H. assert (k = i) by congruence. subst k. apply find_idx_some in E. destruct E as [[c [E1 E2]] E3].
      left. exists c. split; [exact E1|]. split; [apply match_strict; exact E2|].
      intros j c' Hj Hc. apply NF. apply (E3 j c' Hj Hc).
    + intros [[c [H1 [H2 H3]]]|[H1 _]].
      * rewrite <- E. apply find_idx_some. split; [exists c; split; [exact H1|apply match_strict; exact H2]|].
        intros j c' Hj Hc. apply NF. apply (H3 j c' Hj Hc).
      * exfalso. apply find_idx_some in E. destruct E as [[c [E1 E2]] _]. apply match_strict in E2.
        apply (H1 c (nth_error_In _ _ E1) E2).
  - rewrite find_idx_none in E. rewrite loose_some. split.
    + intros [j [c [H1 [H2 [H3 H4]]]]]. right. split; [intros d Hd; apply NF, E, Hd|].
      assert (i = j) by lia. subst. exists c. auto.
    + intros [[c [H1 [H2 _]]]|[_ [c [H1 [H2 H3]]]]].
      * exfalso. apply nth_error_In in H1. apply E in H1. apply match_strict in H2. congruence.
      * exists i, c. split; [lia|]. auto.
Qed.
Print Assumptions C110_found.
Example C110_found_ex : get_cmd (Some [105]) ex_set = Some 1%nat /\ get_cmd (Some [115; 101; 116]) ex_set = Some 0%nat /\
  get_cmd (Some []) ex_set = None.
Proof. repeat split; reflexivity. Qed.
(** A command whose first word is no command is evaluated as an expression, all of it. *)
Theorem C110_expression :
  forall set c, ok_command c -> get_cmd (Some (c_word c)) set = None ->
  exec set (written c) = Ok [EEval (written c)].
Proof. exact exec_expression. Qed.
Print Assumptions C110_expression.
Example C110_expression_ex : exec ex_set [49; 43; 49] = Ok [EEval [49; 43; 49]].
Proof. vm_compute. reflexivity. Qed.

(** ** C111 *)
(** A composed command runs its subcommand on the rest of the command, as if the
    subcommand were typed alone. *)
Theorem C111_subcommand :
  forall set c i id nm rp subs w s items j, ok_command c -> quiet c ->
  get_cmd (Some (c_word c)) set = Some i -> nth_error set i = Some (Super id nm rp subs) ->
  c_items c = (IWord w, s) :: items -> hd 0 w <> 10 -> get_cmd (Some w) subs = Some j ->
  exec set (written c) = exec subs (w ++ s ++ body items).
Proof. intros. rewrite (exec_sub set c i id nm rp subs w s items j); try assumption. reflexivity. Qed.
Print Assumptions C111_subcommand.
(** info reg 1 *)
Definition ex_i : command := mkCmd [] [105; 110; 102; 111] [32] [(IWord [114; 101; 103], [32]); (IWord [49], [])].
Example C111_subcommand_ex : exec ex_set (written ex_i) =
  Ok [ERun 3 (mkL [114; 101; 103; 32; 49] (Some [114; 101; 103]) None [[49]] [P (PInt 1)] [] [])].
Proof. vm_compute. reflexivity. Qed.
Theorem C111_unknown_subcommand :
  forall set c i id nm rp subs w s items, ok_command c -> quiet c ->
  get_cmd (Some (c_word c)) set = Some i -> nth_error set i = Some (Super id nm rp subs) ->
  c_items c = (IWord w, s) :: items -> hd 0 w <> 10 -> get_cmd (Some w) subs = None ->
  exec set (written c) = Ok [EUndef id (Some w)].
Proof. exact exec_sub_undef. Qed.
Print Assumptions C111_unknown_subcommand.
Example C111_unknown_subcommand_ex : exec ex_set [105; 110; 102; 111; 32; 120] = Ok [EUndef 2 (Some [120])].
Proof. vm_compute. reflexivity. Qed.
(** Without a subcommand the command _no_parameters_ of the set is run, or the
    subcommands are listed. *)
Theorem C111_no_subcommand :
  forall set c i id nm rp subs, ok_command c ->
  get_cmd (Some (c_word c)) set = Some i -> nth_error set i = Some (Super id nm rp subs) -> c_items c = [] ->
  ((forall m, In m subs -> ~ named m no_parameters) -> exec set (written c) = Ok [EList id]) /\
  (forall j id' nm' rp', nth_error subs j = Some (Leaf id' nm' rp') -> In no_parameters nm' ->
     (forall k m, (k < j)%nat -> nth_error subs k = Some m -> ~ named m no_parameters) ->
     exists l, exec set (written c) = Ok [ERun id' l] /\ l_prm l = [] /\ l_toks l = []).
Proof.
  intros set c i id nm rp subs H E1 E2 E3.
  pose proof (exec_no_sub set c i id nm rp subs H E1 E2 E3) as E.
  assert (NF : forall m, ~ named m no_parameters -> name_match m (Some no_parameters) true = false).
  { intros m. rewrite <- match_strict. destruct (name_match m (Some no_parameters) true); congruence. }
  split.
  - intros N. rewrite E. unfold get_exact. rewrite (proj2 (find_idx_none _ subs)); [reflexivity|].
    intros m Hm. apply NF, N, Hm.
  - intros j id' nm' rp' Ej Hn Hf. rewrite E. unfold get_exact.
    rewrite (proj2 (find_idx_some _ subs j)).
    + unfold work_nth. rewrite Ej. eexists. split; [reflexivity|]. split; reflexivity.
    + split; [exists (Leaf id' nm' rp'); split; [exact Ej|apply match_strict; exact Hn]|].
      intros k m Hk Hm. apply NF. apply (Hf k m Hk Hm).
Qed.
Print Assumptions C111_no_subcommand.
Example C111_no_subcommand_ex : exec ex_set [105; 110; 102; 111] = Ok [ERun 4 (mkL [] None None [] [] [] [])].
Proof. vm_compute. reflexivity. Qed.

(** ** C112 *)
(** At an interactive console an empty line runs the last command again, without its
    parameters, if it was a repeatable one; it stays the last command. *)
Theorem C112_repeat :
  forall set c i id nm last, ok_command c ->
  get_cmd (Some (c_word c)) set = Some i -> nth_error set i = Some (Leaf id nm true) ->
  exists l, proc_input true set last (written c) = Ok ([ERun id l], Some i) /\
    l_toks l = map (fun p => content (fst p)) (c_items c) /\
  exists l', proc_input true set (Some i) [] = Ok ([ERun id l'], Some i) /\ l_prm l' = [] /\ l_toks l' = [].
Proof.
  intros set c i id nm last H E1 E2. exists (line_of c None).
  split; [apply (input_one true set last c i id nm true H E1 E2)|]. split; [apply line_toks|].
  exists empty_line. split; [apply (input_empty set i id nm true E2)|]. split; reflexivity.
Qed.
Print Assumptions C112_repeat.
Example C112_repeat_ex : proc_input true ex_set None (written ex_c) = Ok ([ERun 1 (line_of ex_c None)], Some 0%nat).
Proof. vm_compute. reflexivity. Qed.
(** Otherwise an empty line does nothing: after a command that is not repeatable, after a
    line of separators or a comment, or when the console is not interactive. *)
Theorem C112_no_repeat :
  forall set, (forall c, In c set -> cnames c <> []) ->
  (forall c n, In c set -> In n (cnames c) -> hd 0 n <> 10) ->
  (forall last, proc_input false set last [] = Ok ([], None)) /\
  proc_input true set None [] = Ok ([], None) /\
  (forall inter last c i id nm, ok_command c -> get_cmd (Some (c_word c)) set = Some i ->
     nth_error set i = Some (Leaf id nm false) ->
     exists l, proc_input inter set last (written c) = Ok ([ERun id l], None)) /\
  (forall inter last s, sep s -> s <> [] -> proc_input inter set last s = Ok ([], None)) /\
  (forall inter last s t, sep s -> proc_input inter set last (s ++ 35 :: t) = Ok ([], None)).
Proof.
  intros set H1 H2. split; [|split; [|split; [|split]]].
  - intros last. apply input_nothing; [left; reflexivity|exact H2].
  - apply input_nothing; [right; reflexivity|exact H2].
  - intros inter last c i id nm Hc E1 E2. exists (line_of c None). apply (input_one inter set last c i id nm false Hc E1 E2).
  - intros inter last s Hs Hn. rewrite <- (app_nil_r s). apply (input_blank inter set last s End Hs); [left; exact Hn|exact H1|exact I].
  - intros inter last s t Hs. apply (input_blank inter set last s (Comment t) Hs); [right; discriminate|exact H1|exact I].
Qed.
Print Assumptions C112_no_repeat.
Example C112_no_repeat_ex : proc_input true ex_set (Some 0%nat) [32; 35; 115] = Ok ([], None).
Proof. vm_compute. reflexivity. Qed.

(** ** C113 *)
(** A syntax matches the parameters exactly when there are as many letters as parameters
    and each letter accepts its parameter; a D at the end takes the rest, at least one. *)
Theorem C113_syntax :
  forall uc syn l, ~ In 68 syn -> (forall c p, In c syn -> In p (l_prm l) -> ~ bad_data c p) ->
  (exists b, syntax_match uc syn l = Ok b /\ (b = true <-> Forall2 (accepts uc) syn (l_prm l))) /\
  ((forall p, In p (l_prm l) -> match p with P (PSym _) => False | _ => True end) ->
   exists b, syntax_match uc (syn ++ [68]) l = Ok b /\
     (b = true <-> exists p1 p2, l_prm l = p1 ++ p2 /\ p2 <> [] /\ Forall2 (accepts uc) syn p1)).
Proof.
  intros uc syn l H1 H2. split.
  - apply syntax_exact; assumption.
  - intros H3. apply syntax_list; assumption.
Qed.
Print Assumptions C113_syntax.
Example C113_syntax_ex : syntax_match None [110; 115] (line_of ex_c None) = Ok false /\
  syntax_match None [110; 100; 115; 115] (line_of ex_c None) = Ok true.
Proof. split; vm_compute; reflexivity. Qed.

(** ** C114 *)
(** The bits of a bit parameter are refused unless they are 0..31, and are put in order. *)
Theorem C114_bit_numbers :
  forall l h,
  bit_numbers (PInt l) None = Ok (if (0 <=? l) && (l <=? 31) then Some (l, l) else None) /\
  bit_numbers (PInt l) (Some (PInt h)) =
    Ok (if (0 <=? l) && (l <=? 31) && ((0 <=? h) && (h <=? 31)) then Some (Z.max h l, Z.min h l) else None).
Proof.
  intros l h. unfold bit_numbers. cbn [ival rbind].
  destruct ((l <? 0) || (32 <=? l)) eqn:E1.
  - replace ((0 <=? l) && (l <=? 31)) with false by lia. split; reflexivity.
  - replace ((0 <=? l) && (l <=? 31)) with true by lia. cbn [rbind andb]. split.
    + rewrite Z.ltb_irrefl. reflexivity.
    + destruct ((h <? 0) || (32 <=? h)) eqn:E2; cbn [rbind].
      * replace ((0 <=? h) && (h <=? 31)) with false by lia. reflexivity.
      * replace ((0 <=? h) && (h <=? 31)) with true by lia.
        destruct (h <? l) eqn:E3; do 2 f_equal; f_equal; lia.
Qed.
Print Assumptions C114_bit_numbers.
Example C114_bit_numbers_ex : bit_numbers (PInt 7) (Some (PInt 3)) = Ok (Some (7, 3)) /\ bit_numbers (PInt 32) None = Ok None.
Proof. split; reflexivity. Qed.
(** A symbol as a bit number is not refused either: a value that was never set is used. *)
Theorem C114_symbol_deviation :
  forall s h, bit_numbers (PSym s) h = UB.
Proof. reflexivity. Qed.
Print Assumptions C114_symbol_deviation.
Example C114_symbol_deviation_ex :
  exists l s, parse [120; 32; 97; 46; 98] = Ok l /\ l_prm l = [PBit (BS (PSym [97])) (PSym s) None] /\
    bit_numbers (PSym s) None = UB.
Proof. eexists. exists [98]. split; [vm_compute; reflexivity|]. split; reflexivity. Qed.

(** ** C115 *)
(** No line without backslash, dollar and newline, and without both > and a quote, makes the interpreter
    read outside its buffers; it comes to an end. *)
Theorem C115_safe :
  forall inter set last line, ~ In 92 line -> ~ In 36 line -> ~ In 10 line -> ~ In 62 line \/ ~ In 34 line ->
  (exists es, exec set line = Ok es) /\
  (line <> [] -> exists r, proc_input inter set last line = Ok r).
Proof.
  intros inter set last line H1 H2 H3 H4.
  destruct (exec_calm set (length line) line (le_n _) (conj H1 (conj H2 (conj H3 H4)))) as [es E].
  split; [exists es; exact E|]. intros Hn.
  pose proof (input_exec (S (length line)) inter set last line (le_n _) Hn H3) as Ei. rewrite E in Ei.
  unfold proc_input. destruct (input_loop (S (length line)) inter set last line); [eauto|discriminate|discriminate].
Qed.
Print Assumptions C115_safe.
Example C115_safe_ex : exists es, exec ex_set [105; 110; 32; 34; 44; 59; 40; 91; 46; 34; 35; 59; 41] = Ok es.
Proof. eexists. vm_compute. reflexivity. Qed.
(** A word that ends with \ or $ makes it read behind the end of its copy. *)
Theorem C115_over_read_deviation :
  forall c s w z, ok_command c -> sep s -> s <> [] ->
  z = 36 \/ z = 92 -> Forall wchar w -> ~ In 36 w -> ~ In 92 w ->
  hd z w <> 34 -> hd z w <> 62 ->
  parse (written c ++ s ++ w ++ [z]) = UB.
Proof.
  intros c s w z H Hs Hsn Hz Hw N1 N2 N3 N4.
  assert (Hws : Forall (fun x => memc stops x = false) (w ++ [z])).
  { apply Forall_app. split.
    - eapply Forall_impl; [|exact Hw]. intros; apply wchar_stop; assumption.
    - constructor; [|constructor]. destruct Hz as [-> | ->]; reflexivity. }
  assert (Hhd : hd 0 (w ++ [z]) = hd z w) by (destruct w; reflexivity).
  apply (split_then c s (w ++ [z]) None UB H Hs Hsn).
  - destruct (w ++ [z]) as [|x y] eqn:E; [exact I|]. cbn [clean]. inversion Hws as [|? ? Hx _]; subst.
    destruct (memc delims x) eqn:Ex; [|reflexivity]. apply delim_memc in Ex.
    assert (memc stops x = true) by (apply stop_memc; left; exact Ex). congruence.
  - destruct w; discriminate.
  - intros a. apply L_word_over; [exact Hws|rewrite Hhd; exact N3|rewrite Hhd; exact N4|].
    apply expand_over; assumption.
  - reflexivity.
Qed.
Print Assumptions C115_over_read_deviation.
Example C115_over_read_deviation_ex : parse [115; 101; 116; 32; 97; 36] = UB.
Proof. vm_compute. reflexivity. Qed.
(** So does a quoted file name without its closing quote. *)
Theorem C115_redirect_over_read_deviation :
  forall c s t, ok_command c -> sep s -> s <> [] -> ~ In 34 t -> ~ In 92 t ->
  parse (written c ++ s ++ 62 :: 34 :: t) = UB.
Proof.
  intros c s t H Hs Hsn N1 N2. apply (split_then c s (62 :: 34 :: t) None UB H Hs Hsn).
  - reflexivity.
  - discriminate.
  - intros a. unfold L. cbn [split_loop Z.eqb Pos.eqb]. cbn [token_rest Z.eqb Pos.eqb].
    rewrite quoted_rest_plain by assumption. reflexivity.
  - reflexivity.
Qed.
Print Assumptions C115_redirect_over_read_deviation.
Example C115_redirect_over_read_deviation_ex : parse [120; 32; 62; 34; 97] = UB.
Proof. vm_compute. reflexivity. Qed.

(** ** C116 *)
(** >file and >>file at the end of a command redirect its output, without a blank; a name
    in quotes can hold blanks and semicolons.  Words and parameters are not changed. *)
Theorem C116_redirect :
  forall c s f (app_mode quoted : bool), ok_command c -> sep s -> s <> [] ->
  (if quoted then ~ In 34 f /\ ~ In 92 f
   else f <> [] /\ Forall (fun x => x <> 0 /\ ~ delim x /\ x <> 59) f /\ hd 0 f <> 34 /\ hd 0 f <> 62) ->
  exists l, parse (written c ++ s ++ (if app_mode then [62; 62] else [62]) ++ (if quoted then 34 :: f ++ [34] else f)) = Ok l /\
    l_name l = Some (c_word c) /\ l_toks l = map (fun p => content (fst p)) (c_items c) /\
    l_redir l = [(f, if app_mode then 97 else 119)].
Proof.
  intros c s f m q H Hs Hsn Hf.
  set (F := if q then 34 :: f ++ [34] else f).
  assert (HF : token_rest F = Ok [] /\ get_token F = Ok f /\ hd 0 F <> 62 /\ F <> []).
  { unfold F. destruct q.
    - destruct Hf as [N1 N2]. cbn [token_rest get_token Z.eqb Pos.eqb hd].
      rewrite quoted_rest_ok by assumption. rewrite quoted_token_ok by assumption. repeat split; [lia|discriminate].
    - destruct Hf as [Hn [Hw [N1 N2]]]. destruct f as [|x f]; [congruence|]. cbn [hd] in N1, N2 |- *.
      assert (Ec : forall y, Forall (fun x => x <> 0 /\ ~ delim x /\ x <> 59) y -> strcspn y tok_stops = length y).
      { induction 1 as [|y ys [_ [Hy1 Hy2]] _ IH]; [reflexivity|]. cbn [strcspn length].
        assert (M : memc tok_stops y = false).
        { apply memc_false. unfold tok_stops. intros Hi. apply in_app_or in Hi. destruct Hi as [Hi|[Hi|[]]]; [|lia].
          apply Hy1. apply delim_memc, memc_In. exact Hi. }
        rewrite M, IH. reflexivity. }
      cbn [token_rest get_token]. replace (x =? 34) with false by lia. rewrite (Ec (x :: f) Hw).
      rewrite skipn_all, firstn_all. repeat split; [exact N2|discriminate]. }
  clearbody F. destruct HF as [F1 [F2 [F3 F4]]].
  unfold parse.
  rewrite (split_redir c s ((if m then [62; 62] else [62]) ++ F)
     (fun a => mkA (a_toks a) (a_prm a) (a_redir a ++ [(f, if m then 97 else 119)]) (a_err a)) None H Hs).
  - eexists. split; [reflexivity|]. cbn [l_name l_toks l_redir a_toks a_redir]. rewrite items_acc_eq.
    cbn [a_toks a_redir acc0 app]. repeat split; reflexivity.
  - intros _ E. apply app_eq_nil in E. tauto.
  - intros l p _. destruct (fst p); [|exact I]. intros E. apply app_eq_nil in E. tauto.
  - destruct m; reflexivity.
  - destruct m; discriminate.
  - intros a. destruct m; unfold L; cbn [app length split_loop Z.eqb Pos.eqb].
    + rewrite F1, F2. cbn [rbind skip_delims]. reflexivity.
    + destruct F as [|x F']; [congruence|]. cbn [hd] in F3. replace (x =? 62) with false by lia.
      cbv iota beta. rewrite F1, F2. cbn [rbind skip_delims]. reflexivity.
Qed.
Print Assumptions C116_redirect.
Example C116_redirect_ex : exists l, parse (written ex_c ++ [32] ++ [62; 62] ++ 34 :: [97; 32; 59] ++ [34]) = Ok l /\
  l_redir l = [([97; 32; 59], 97)].
Proof. eexists. split; [vm_compute; reflexivity|reflexivity]. Qed.
(** With a blank behind > the output goes to a file without a name, and the file name is
    taken as one more parameter. *)
Theorem C116_blank_deviation :
  forall c s b f, ok_command c -> sep s -> s <> [] -> delim b -> word f ->
  exists l, parse (written c ++ s ++ 62 :: b :: f) = Ok l /\ l_redir l = [([], 119)] /\
    l_toks l = map (fun p => content (fst p)) (c_items c) ++ [f].
Proof.
  intros c s b f H Hs Hsn Hb Hf. destruct (word_parts f Hf) as [W1 [W2 [W3 [W4 W5]]]].
  assert (Fs : skip_delims f = f).
  { destruct f as [|x f]; [reflexivity|]. cbn [skip_delims]. destruct Hf as [_ [Hf _]].
    rewrite wchar_delim by (inversion Hf; assumption). reflexivity. }
  unfold parse.
  rewrite (split_redir c s (62 :: b :: f)
     (fun a => add_word (mkA (a_toks a) (a_prm a) (a_redir a ++ [([], 119)]) (a_err a)) f (fst (word_param f)) (snd (word_param f))) None H Hs).
  - eexists. split; [reflexivity|]. cbn [l_name l_toks l_redir add_word a_toks a_redir]. rewrite items_acc_eq.
    cbn [a_toks a_redir acc0 app]. split; reflexivity.
  - intros _ E. apply app_eq_nil in E. tauto.
  - intros l p _. destruct (fst p); [|exact I]. intros E. apply app_eq_nil in E. tauto.
  - reflexivity.
  - discriminate.
  - intros a. unfold L. cbn [split_loop Z.eqb Pos.eqb].
    assert (Hb' : memc delims b = true) by (apply delim_memc; exact Hb).
    assert (b <> 62 /\ b <> 34) by (unfold delim in Hb; lia).
    assert (Mt : memc tok_stops b = true).
    { apply memc_In. unfold tok_stops. apply in_or_app. left. apply memc_In. exact Hb'. }
    replace (b =? 62) with false by lia. cbv iota beta.
    unfold token_rest, get_token. replace (b =? 34) with false by lia. cbn [strcspn]. rewrite Mt. cbn [skipn firstn rbind].
    cbn [skip_delims]. rewrite Hb', Fs.
    rewrite L_ge; [|rewrite <- Fs; apply clean_skip|cbn [length]; lia].
    pose proof (L_word f [] (mkA (a_toks a) (a_prm a) (a_redir a ++ [([], 119)]) (a_err a)) W1 W2 I W3 W4) as E.
    rewrite app_nil_r in E. rewrite E, W5. reflexivity.
Qed.
Print Assumptions C116_blank_deviation.
Example C116_blank_deviation_ex : exists l, parse [120; 32; 62; 32; 102] = Ok l /\ l_redir l = [([], 119)] /\ l_toks l = [[102]].
Proof. eexists. split; [vm_compute; reflexivity|]. split; reflexivity. Qed.
