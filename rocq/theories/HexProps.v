(** C09 - C13, C30, C31: loading and saving memory contents. *)
From Verif Require Import Base HexModel HexSpec HexProofs HexProofs2.

(** C09. Dump a range of an 8 bit memory and load the text: the bytes of the
    range are back, all other addresses keep what they had. [old] is the memory
    at the time of loading, [rd] at the time of dumping. Memories up to 64k. *)
Theorem C09_dump_load_roundtrip :
  forall rd old lva hva start stop bpl w,
  w <= 8 -> 1 <= bpl -> 0 <= lva -> lva <= start -> start <= stop -> stop <= hva -> hva < 65536 ->
  (forall a, 0 <= rd a < 256) ->
  exists txt ws, dump_i rd lva hva start stop bpl = Ok txt /\ read_hex w txt = Ok ws /\
    forall a, set_all 0 4294967295 0 lva hva old ws a =
      if (start <=? a) && (a <=? stop) then rd a else old a.
Proof.
  intros rd old lva hva start stop bpl w Hw Hb H0 H1 H2 H3 H4 Hrd.
  destruct (dump_load rd lva hva start stop bpl w Hw Hb H0 H1 H2 H3 H4) as (txt & E1 & E2).
  exists txt. eexists. split; [exact E1|]. split; [exact E2|]. intros a.
  rewrite set_all_cells by (try change (2^32) with 4294967296; lia).
  rewrite Z2Nat.id by lia. replace (start + (stop + 1 - start)) with (stop + 1) by lia.
  replace (a <? stop + 1) with (a <=? stop) by lia.
  destruct ((start <=? a) && (a <=? stop)); [apply u8_id, Hrd|reflexivity].
Qed.

Definition ex_rd (a : Z) : Z := (a * 7 + 3) mod 256.
Definition ex_dump : list Z := match dump_i ex_rd 0 1023 30 40 4 with Ok t => t | _ => [] end.
Example C09_example :
  read_hex 8 ex_dump =
  Ok [(30, 213); (31, 220); (32, 227); (33, 234); (34, 241); (35, 248); (36, 255); (37, 6); (38, 13); (39, 20); (40, 27)]
  /\ length ex_dump = 87%nat.
Proof. vm_compute. auto. Qed.

(** The unrestricted claim fails: above 64k the address needs more than four
    digits, the line is not a record any more. One byte at 0x10000 is dumped,
    loading the text stores nothing there. *)
Definition ex_dump2 : list Z := match dump_i ex_rd 0 131071 65536 65536 16 with Ok t => t | _ => [] end.
Theorem C09_above_64k_deviation :
  exists ws, read_hex 8 ex_dump2 = Ok ws /\
    set_all 0 4294967295 0 0 131071 (fun _ => 0) ws 65536 <> ex_rd 65536.
Proof. eexists. split; [vm_compute; reflexivity|]. vm_compute. discriminate. Qed.

(** C10. For any file made of records (good or bad ones, anything between them),
    what is stored is the meaning of the records before the first one of type 1,
    where wrong records do not count... *)
Theorem C10_bad_records_ignored : forall w rs txt,
  w <= 8 -> hex_file rs txt -> Forall rec_ok rs ->
  read_hex w txt = Ok (meaning 0 (until_end rs)).
Proof. exact read_hex_exact. Qed.

(** ... that is, a file with a corrupted record loads the same as the file
    without it, unless it is of type 1 ... *)
Theorem C10_same_as_without_it : forall w a r b txt txt',
  w <= 8 -> hex_file (a ++ r :: b) txt -> hex_file (a ++ b) txt' ->
  Forall rec_ok (a ++ r :: b) -> rec_good r = false -> r_type r <> 1 ->
  read_hex w txt = read_hex w txt'.
Proof.
  intros w a r b txt txt' Hw Hf Hf' Hok Hr Hb.
  rewrite (C10_bad_records_ignored w _ txt Hw Hf Hok).
  rewrite (C10_bad_records_ignored w _ txt' Hw Hf').
  - rewrite !until_end_app. destruct (existsb _ a); [reflexivity|]. cbn [until_end].
    destruct (r_type r =? 1) eqn:E; [lia|]. rewrite meaning_skip_bad by exact Hr. reflexivity.
  - apply Forall_app in Hok. destruct Hok as [A B]. apply Forall_inv_tail in B. apply Forall_app; auto.
Qed.

(** ... because a record of type 1 ends the loading even if it is corrupted: all
    that comes after it is lost. *)
Theorem C10_corrupted_end_record : forall w a r b txt txt',
  w <= 8 -> hex_file (a ++ r :: b) txt -> hex_file a txt' ->
  Forall rec_ok (a ++ r :: b) -> r_type r = 1 ->
  read_hex w txt = read_hex w txt'.
Proof.
  intros w a r b txt txt' Hw Hf Hf' Hok Hr.
  rewrite (C10_bad_records_ignored w _ txt Hw Hf Hok).
  rewrite (C10_bad_records_ignored w _ txt' Hw Hf').
  - rewrite until_end_app. destruct (existsb _ a); [reflexivity|]. cbn [until_end]. rewrite Hr. cbn [Z.eqb Pos.eqb].
    rewrite app_nil_r. reflexivity.
  - apply Forall_app in Hok. apply Hok.
Qed.

(** ":01000500AA50" ":0100060011EE" (wrong) ":0100070022D6" *)
Definition ex_recs : list hrec := [mkRec 5 0 [170] 80; mkRec 6 0 [17] 238; mkRec 7 0 [34] 214].
Definition rec_text (r : hrec) : list Z := 58 :: List.concat (List.map hex2 (rec_bytes r)) ++ [10].
Definition file_text (rs : list hrec) : list Z := List.concat (List.map rec_text rs).
Example C10_example :
  List.map rec_good ex_recs = [true; false; true] /\
  read_hex 8 (file_text ex_recs) = Ok [(5, 170); (7, 34)].
Proof. vm_compute. auto. Qed.

(** A corrupted record which looks like an end-of-file record. *)
Example C10_bad_eof_example :
  let bad := mkRec 0 1 [] 0 in
  rec_good bad = false /\
  read_hex 8 (file_text [bad; mkRec 7 0 [34] 214]) <> read_hex 8 (file_text [mkRec 7 0 [34] 214]).
Proof. vm_compute. split; [reflexivity|discriminate]. Qed.

(** C11. A well formed file (aligned data records, then an end record) in a
    memory with words of [n0] = 2 or 4 bytes: everything but word 0 is right. *)
Theorem C11_wide_memory : forall w n0 rs eof txt,
  (9 <= w <= 16 /\ n0 = 2%nat) \/ (25 <= w <= 32 /\ n0 = 4%nat) ->
  hex_file (rs ++ [eof]) txt -> Forall rec_ok (rs ++ [eof]) ->
  Forall (fun r => r_type r <> 1) rs -> r_type eof = 1 -> r_addr eof = 0 ->
  Forall (fun r => r_type r = 0 -> r_addr r mod Z.of_nat n0 = 0 /\ Nat.modulo (length (r_data r)) n0 = 0%nat) rs ->
  exists ws, read_hex w txt = Ok ws /\
    forall m a, stored m ws a = if a =? 0 then 0 else stored m (meaning_w n0 0 rs) a.
Proof.
  intros w n0 rs eof txt Hw Hf Hok Hb He1 He0 Hal.
  exists (meaning_w n0 0 rs ++ [(0, 0)]). split; [eapply read_hex_wide; eauto|].
  assert (G : forall l m a, stored m (l ++ [(0, 0)]) a = if a =? 0 then 0 else stored m l a).
  { induction l as [|[x v] l IH]; intros m a; cbn [app stored]; [reflexivity|]. apply IH. }
  apply G.
Qed.

Definition ex_wide : list hrec := [mkRec 4 0 [1; 2; 3; 4] 238].
Definition ex_eof : hrec := mkRec 0 1 [] 255.
Example C11_example :
  read_hex 16 (file_text (ex_wide ++ [ex_eof])) = Ok [(2, 513); (3, 1027); (0, 0)] /\
  rec_good (hd ex_eof ex_wide) = true.
Proof. vm_compute. auto. Qed.

(** The full claim fails: word 0 is cleared after the last record. *)
Theorem C11_word_zero_deviation :
  exists ws, read_hex 16 (file_text [mkRec 0 0 [170; 187] 153; ex_eof]) = Ok ws /\
    rec_good (mkRec 0 0 [170; 187] 153) = true /\
    stored (fun _ => 0) (meaning_w 2 0 [mkRec 0 0 [170; 187] 153]) 0 = 48042 /\
    stored (fun _ => 0) ws 0 = 0.
Proof. eexists. split; [vm_compute; reflexivity|]. vm_compute. auto. Qed.

(** Memories of 17 - 24 bits: the record address is divided by three but words
    are made of four bytes. Two consecutive words do not stay consecutive. *)
Theorem C11_24bit_deviation :
  read_hex 24 (file_text [mkRec 0 0 [1;2;3;4;5;6;7;8;9;10;11;12] 166; mkRec 12 0 [1;2;3] 235; ex_eof]) =
  Ok [(0, 67305985); (1, 134678021); (2, 202050057); (0, 197121)].
Proof. vm_compute. reflexivity. Qed.

(** C12. A correct S1, S2 or S3 line stores its bytes to consecutive addresses
    (byte memories). [trail]: anything after the checksum, e.g. a CR. *)
Theorem C12_srecord_payload : forall w t a data txt trail,
  w <= 8 -> (t = 1 \/ t = 2 \/ t = 3) -> 0 <= a < 256 ^ (t + 1) ->
  Forall (fun b => 0 <= b < 256) data -> Z.of_nat (length data) + t + 2 < 256 ->
  hex_text (srec_bytes t a data ++ [srec_chk t a data]) txt ->
  s19_line w (83 :: 48 + t :: txt ++ trail) = cells a data.
Proof. exact s19_line_good. Qed.

(** Lines which do not begin with S1, S2 or S3, are shorter than their count, or
    have a wrong checksum store nothing (any memory). *)
Theorem C12_other_lines_ignored : forall w s,
  s19_line w s <> [] ->
  exists t rest, (t = 1 \/ t = 2 \/ t = 3) /\ s = 83 :: 48 + t :: rest /\
    4 + 2 * h2 s 2 <= Z.of_nat (length s) /\
    (sum_bytes s (Z.to_nat (h2 s 2)) 2 + h2 s (2 + Z.to_nat (h2 s 2) * 2)) mod 256 = 255.
Proof. exact s19_line_only. Qed.

(** "S1051234ABCD3C" *)
Definition ex_s1 : list Z := [83;49;48;53;49;50;51;52;65;66;67;68;51;67].
Example C12_example : s19_line 8 ex_s1 = [(4660, 171); (4661, 205)] /\
  List.concat (List.map hex2 (srec_bytes 1 4660 [171; 205] ++ [srec_chk 1 4660 [171; 205]])) = skipn 2 ex_s1.
Proof. vm_compute. auto. Qed.

(** A line which is not hex at all in its data field ("S1040000GGFB") is taken:
    wrong digits count as zero. *)
Theorem C12_nonhex_deviation : s19_line 8 [83;49;48;52;48;48;48;48;71;71;70;66] = [(0, 0)].
Proof. vm_compute. reflexivity. Qed.

(** In 16 bit memories the address is divided by 24 instead of 2:
    "S10500301122??" belongs to word 24 but is stored to word 2. *)
Theorem C12_16bit_address_deviation :
  let line := [83;49] ++ List.concat (List.map hex2 (srec_bytes 1 48 [17; 34] ++ [srec_chk 1 48 [17; 34]])) in
  s19_line 16 line = [(2, 8721)].
Proof. vm_compute. reflexivity. Qed.

(** C13. What happens to a content record: the data lands three bytes higher. *)
Theorem C13_omf_offset_exact : forall id lo hi data,
  0 <= lo < 256 -> 0 <= hi < 256 -> data <> [] ->
  omf_record 6 (id :: lo :: hi :: data) = cells (256 * hi + lo + 3) data.
Proof. exact omf_exact. Qed.

(** So the claim fails for every content record with data. *)
Theorem C13_omf_address_deviation : forall id lo hi data,
  0 <= lo < 256 -> 0 <= hi < 256 -> data <> [] ->
  omf_record 6 (id :: lo :: hi :: data) <> cells (256 * hi + lo) data.
Proof.
  intros id lo hi data Hl Hh Hd. rewrite C13_omf_offset_exact by assumption.
  destruct data as [|x t]; [congruence|]. cbn [cells]. intros H.
  apply (f_equal (fun l => fst (hd (0, 0) l))) in H. cbn [hd fst] in H.
  change (2^32) with 4294967296 in H. lia.
Qed.

Example C13_example : omf_record 6 [0; 0; 16; 2; 18; 52] = [(4099, 2); (4100, 18); (4101, 52)].
Proof. vm_compute. reflexivity. Qed.

(** C30. Loading with file@name never changes the named memory, the bytes are
    stored in the code memory. *)
Theorem C30_named_space_exact : forall la ha rom named l,
  snd (fold_left (set_rom_named 0 4294967295 0 la ha) l (rom, named)) = named /\ fst (fold_left (set_rom_named 0 4294967295 0 la ha) l (rom, named)) = set_all 0 4294967295 0 la ha rom l.
Proof.
  intros la ha rom named l. unfold set_all. revert rom.
  induction l as [|x l IH]; intros rom; cbn [fold_left]; [auto|].
  unfold set_rom_named at 2 4. apply IH.
Qed.
Example C30_example :
  let '(rom, xram) := fold_left (set_rom_named 0 4294967295 0 0 255) [(16, 170)] ((fun _ => 0), (fun _ => 0)) in
  rom 16 = 170 /\ xram 16 = 0.
Proof. vm_compute. auto. Qed.

(** C31. file#min-max:offset stores exactly the bytes with addresses in min..max,
    offset added, which fall in the valid range. *)
Theorem C31_range_and_offset : forall mi ma offset la ha l,
  0 <= mi -> ma <= 4294967295 -> Forall (fun x => 0 <= fst x < 4294967296) l ->
  forall rom i,
  set_all mi ma offset la ha rom l i =
  stored rom (filter (fun x => (la <=? fst x) && (fst x <=? ha))
    (List.map (fun x => ((fst x + offset) mod 2^32, snd x))
       (filter (fun x => (mi <=? fst x) && (fst x <=? ma)) l))) i.
Proof. exact set_all_window. Qed.
Example C31_example :
  List.map (set_all 5 6 (-4) 0 100 (fun _ => 0) [(4, 1); (5, 2); (6, 3); (7, 4)]) [0;1;2;3;4;5;6;7] = [0;2;3;0;0;0;0;0].
Proof. vm_compute. reflexivity. Qed.

Print Assumptions C09_dump_load_roundtrip.
Print Assumptions C10_bad_records_ignored.
Print Assumptions C10_same_as_without_it.
Print Assumptions C10_corrupted_end_record.
Print Assumptions C11_wide_memory.
Print Assumptions C12_srecord_payload.
Print Assumptions C12_other_lines_ignored.
Print Assumptions C13_omf_offset_exact.
Print Assumptions C13_omf_address_deviation.
Print Assumptions C30_named_space_exact.
Print Assumptions C31_range_and_offset.
Print Assumptions C09_above_64k_deviation.
Print Assumptions C11_word_zero_deviation.
Print Assumptions C11_24bit_deviation.
Print Assumptions C12_nonhex_deviation.
Print Assumptions C12_16bit_address_deviation.
