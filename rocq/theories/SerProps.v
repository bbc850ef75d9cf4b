(** C98-C104: the serial port of the MCS51. *)
From Verif Require Import Base SerModel SerSpec SerProofs SerProofs2 SerProofs3 SerProofs4 SerProofs5 SerProofs6 SerProofs7.

(** a controller with an arbitrary content of the uninitialised members, nl = LF *)
Definition u0 : st := mkSt 7 7 7 7 true true 7 7 7 7 7 7 7 true true 7 7 true 7 true true 7 7 10 true false false [1] [2] [3] [4].
Definition raw0 : st := mkSt 7 7 7 7 true true 7 7 7 7 7 7 7 true true 7 7 true 7 true true 7 7 0 false false true [1] [2] [3] [4].
Fact quiet_overs n : Forall quiet (repeat Over n) /\ Forall quiet_flags (repeat Over n).
Proof. split; induction n; constructor; try assumption; exact Logic.I. Qed.

(** C98: a byte written into SBUF is sent, and TI set, in the first tick before which the frame
    time has passed: 8, 10, 11 or 11 bits of 12 clocks (mode 0), 32 or with SMOD 16 overflows
    (modes 1, 3) or clocks (mode 2); 16 in every mode when RCLK or TCLK is on.  Before that
    nothing is sent *)
Theorem C98_frame_sent : forall s h v l, reached s h -> rate_ok s -> Forall quiet l ->
  let s' := run s (WSbuf v :: l) in let d := due (clocked s) (frame_time s) 0 l in
  outp s' = outp s ++ (if d then [v mod 256] else []) /\ (Forall quiet_flags l -> ti s' = ti s || d).
Proof. exact frame_sent. Qed.
Print Assumptions C98_frame_sent.
Example C98_ex : let s := run (power_on u0) [WScon 64] in let l := repeat Over 319 ++ [Tick 2; RSbuf] in
  reached s [WScon 64] /\ rate_ok s /\ Forall quiet l /\ Forall quiet_flags l /\ frame_time s = 320 /\
  due (clocked s) (frame_time s) 0 l = false /\ due (clocked s) (frame_time s) 0 (l ++ [Over; Tick 1]) = true.
Proof.
  cbv zeta. split; [exists u0; split; [cbn; lia|]; split; [repeat constructor|reflexivity]|]. split; [right; reflexivity|]. split; [apply Forall_app; split; [apply quiet_overs|repeat constructor; cbn; lia]|]. split; [apply Forall_app; split; [apply quiet_overs|repeat constructor; cbn; lia]|]. split; [reflexivity|]. split; vm_compute; reflexivity.
Qed.

(** C99: whatever happens, the bytes sent are bytes written into SBUF, in the order written;
    unless SBUF is written again or the chip is reset a byte is sent at most once *)
Theorem C99_order : forall s h, reached s h -> subseq (outp s) (written h).
Proof. exact sent_order. Qed.
Theorem C99_once : forall s h v l, reached s h -> Forall proper l -> Forall (fun o => o <> CpuReset /\ forall w, o <> WSbuf w) l ->
  outp (run s (WSbuf v :: l)) = outp s \/ outp (run s (WSbuf v :: l)) = outp s ++ [v mod 256].
Proof. exact sent_once. Qed.
Print Assumptions C99_order.
Print Assumptions C99_once.
(** the second byte overwrites the first before its frame is over *)
Example C99_ex : let h := [WSbuf 65; Tick 9; Tick 0; WSbuf 66; Tick 4; WSbuf 67; Tick 8; Tick 0] in
  outp (run (power_on u0) h) = [65; 67] /\ written h = [65; 66; 67] /\ subseq [65; 67] [65; 66; 67].
Proof. cbv zeta. split; [vm_compute; reflexivity|]. split; [reflexivity|]. apply sub_take, sub_skip, sub_take, sub_nil. Qed.

(** C100: whatever happens, the bytes that get into the receive register are, in order and
    without loss, a beginning of the input (if nl is 0) or of the input with its newlines
    translated; and all of it once the device and the port hold nothing more *)
Theorem C100_stream : forall s h, reached s h -> exists r, delivered (nl s) (arrived h) = rcvd s ++ r /\ (dev s = [] -> avail s = false -> r = []).
Proof. exact stream. Qed.
Print Assumptions C100_stream.
Definition h100 : list op := [WScon 16; Arrive [72; 13; 10]; Poll; Tick 9; CpuReset; WScon 16; Tick 1; Tick 8; Arrive [105]; Tick 1; Poll; Tick 1; Tick 8; Tick 1; RSbuf; Poll; Poll; Tick 1; Tick 8; Tick 1].
Example C100_ex : reached (run (power_on raw0) h100) h100 /\ rcvd (run (power_on raw0) h100) = [72; 13; 10] /\ arrived h100 = [72; 13; 10; 105].
Proof. split; [exists raw0; split; [cbn; lia|]; split; [repeat constructor; cbn; lia|reflexivity]|]. split; vm_compute; reflexivity. Qed.

(** C101: with REN set, a waiting character and no reception going on, the next tick starts the
    reception; the character gets into SBUF and RI is set in the first tick before which the
    frame time has passed, not earlier *)
Theorem C101_frame_received : forall s h k l, reached s h -> rate_ok s -> Z.testbit (scon s) 4 = true -> avail s = true -> receiving s = false -> 0 <= k -> Forall quiet l -> Forall quiet_flags l ->
  let u := if clocked s then 12 * k else 0 in let d := due (clocked s) (frame_time s) u in let s1 := run s (Tick k :: l) in
  d l = false ->
  rcvd s1 = rcvd s /\ s_in s1 = s_in s /\ ri s1 = ri s /\
  forall j, 0 <= j -> d (l ++ [Tick j]) = true -> exists c, let s2 := run s (Tick k :: l ++ [Tick j]) in rcvd s2 = rcvd s ++ [c] /\ ri s2 = true /\ reads (step s2 RSbuf) = reads s2 ++ [c].
Proof. exact frame_received. Qed.
Print Assumptions C101_frame_received.
Example C101_ex : let h := [WScon 80; Arrive [72; 73]; Poll] in let s := run (power_on u0) h in let l := repeat Over 320 in
  reached s h /\ rate_ok s /\ Z.testbit (scon s) 4 = true /\ avail s = true /\ receiving s = false /\ Forall quiet l /\ Forall quiet_flags l /\
  due (clocked s) (frame_time s) 0 l = false /\ due (clocked s) (frame_time s) 0 (l ++ [Tick 1]) = true.
Proof.
  cbv zeta. split; [exists u0; split; [cbn; lia|]; split; [repeat constructor; cbn; lia|reflexivity]|]. split; [right; reflexivity|]. split; [reflexivity|]. split; [reflexivity|]. split; [reflexivity|]. split; [apply quiet_overs|]. split; [apply quiet_overs|]. split; vm_compute; reflexivity.
Qed.

(** C102: with flow control (the default) and a newline of at most one byte, a program that
    reads SBUF only when there is an unread byte, however late, gets every byte: it reads the
    received bytes in order and never is more than one unread.  Without flow control bytes are
    lost *)
Theorem C102_flow : forall s0 h, flow s0 = true -> 0 <= nl s0 < 256 -> Forall proper h -> polite (power_on s0) h ->
  let s := run (power_on s0) h in (length (rcvd s) <= S (length (reads s)))%nat /\ reads s = firstn (length (reads s)) (rcvd s).
Proof. exact flow_control. Qed.
Definition h102 : list op := [WScon 16; Arrive [72; 13; 10; 105]; Poll; Tick 1; Tick 8; Tick 1; Poll; Tick 99; RSbuf; Poll; Tick 1; Tick 8; Tick 1; RSbuf; Poll; Poll; Tick 1; Tick 8; Tick 1].
Example C102_ex : polite (power_on u0) h102 /\ Forall proper h102 /\ rcvd (run (power_on u0) h102) = [72; 10; 105] /\ reads (run (power_on u0) h102) = [72; 10].
Proof.
  split.
  - unfold h102. cbn [polite]. repeat match goal with |- _ /\ _ => split; [first [discriminate|intros _; vm_compute; lia]|split; [discriminate|]] end. exact Logic.I.
  - split; [repeat constructor; cbn; lia|]. split; vm_compute; reflexivity.
Qed.
Theorem C102_lost_without : exists s0 h, flow s0 = false /\ nl s0 = 10 /\ polite (power_on s0) h /\ reads (run (power_on s0) h) <> firstn (length (reads (run (power_on s0) h))) (rcvd (run (power_on s0) h)).
Proof.
  exists (mkSt 0 0 0 0 false false 0 0 0 0 0 0 0 false false 0 0 false 0 false false 0 0 10 false true false [] [] [] []), [WScon 16; Arrive [72; 73]; Poll; Tick 1; Tick 8; Tick 1; Poll; Tick 1; Tick 8; Tick 1; RSbuf].
  split; [reflexivity|]. split; [reflexivity|]. split; [|vm_compute; discriminate].
  cbn [polite]. repeat match goal with |- _ /\ _ => split; [first [discriminate|intros _; vm_compute; lia]|split; [discriminate|]] end. exact Logic.I.
Qed.
Print Assumptions C102_flow.
Print Assumptions C102_lost_without.

(** C103: a text whose lines all end by the same newline convention (LF, CR, CR LF or LF CR)
    arrives with each line ended by the bytes of nl *)
Theorem C103_lines : forall s h eol ls, reached s h -> nl_bytes (nl s) <> [] -> convention eol -> Forall plain ls -> arrived h = text eol ls ->
  exists r, text (nl_bytes (nl s)) ls = rcvd s ++ r /\ (dev s = [] -> avail s = false -> r = []).
Proof. intros s h eol ls R N C P A. destruct (stream s h R) as (r & E & D). rewrite A, (lines _ _ _ N C P) in E. exists r. split; assumption. Qed.
Print Assumptions C103_lines.
Example C103_ex : nl_bytes 2573 = [13; 10] /\ convention [13; 10] /\ Forall plain [[72]; []; [105]] /\ text [13; 10] [[72]; []; [105]] = [72; 13; 10; 13; 10; 105; 13; 10] /\
  delivered 10 [72; 13; 10; 13; 10; 105; 13; 10] = [72; 10; 10; 105; 10] /\ delivered 2573 [72; 10; 10; 10; 105; 10] = [72; 13; 10; 13; 10; 13; 10; 105; 13; 10].
Proof. split; [reflexivity|]. split; [right; right; left; reflexivity|]. split; [repeat constructor; lia|]. split; [reflexivity|]. split; reflexivity. Qed.
(** ... but mixed conventions lose lines: an LF line followed by an empty CR line *)
Theorem C103_mixed : delivered 10 [72; 10; 13; 105; 10] = [72; 10; 105; 10].
Proof. reflexivity. Qed.

(** C104: only ticks, writes to SCON and reset change SCON; a tick only sets TI and RI, never
    clears a bit *)
Theorem C104_flags_only : forall s h o, reached s h -> proper o -> (match o with WScon _ | WSconBit _ _ | CpuReset => False | _ => True end) -> let s' := step s o in
  (forall j, 2 <= j < 8 -> Z.testbit (scon s') j = Z.testbit (scon s) j) /\ (ti s = true -> ti s' = true) /\ (ri s = true -> ri s' = true) /\ ((forall k, o <> Tick k) -> scon s' = scon s).
Proof. exact flags_only. Qed.
(** a write to SCON and a reset make the rate of the registers the one in use; nothing changes that
    but clearing RCLK and TCLK *)
Theorem C104_rate : forall s h o, reached s h -> proper o -> (rate_ok s \/ (exists v, o = WScon v) \/ o = CpuReset) -> ~ (o = T2Con false /\ t2b s = true) -> rate_ok (step s o).
Proof. exact rate_kept. Qed.
(** a reset ends the frames on their way (the byte being sent is lost) and clears SCON; input
    already taken stays *)
Theorem C104_reset : forall s h, reached s h -> let s' := step s CpuReset in
  scon s' = 0 /\ outp s' = outp s /\ rcvd s' = rcvd s /\ sending s' = false /\ receiving s' = false /\ t2b s' = false /\ avail s' = avail s /\ dev s' = dev s.
Proof. exact reset_state. Qed.
(** after RCLK or TCLK were on, their rate stays until the next write to SCON or flag *)
Theorem C104_stale_rate : exists h s, reached s h /\ t2b s = false /\ frame_time s = 320 /\ outp (run s (WSbuf 65 :: repeat Over 160 ++ [Tick 1])) = [65].
Proof.
  exists [WScon 64; T2Con true; Tick 1; T2Con false], (run (power_on u0) [WScon 64; T2Con true; Tick 1; T2Con false]). split; [exists u0; split; [cbn; lia|]; split; [repeat constructor; cbn; lia|reflexivity]|]. split; [reflexivity|]. split; [reflexivity|vm_compute; reflexivity].
Qed.
(** in modes 1 and 3 every write to T2CON with RCLK and TCLK off discards the overflows counted so
    far: a program that keeps writing it can keep a byte from ever being sent *)
Theorem C104_starved : forall s h v m k n, reached s h -> rate_ok s -> t2b s = false -> clocked s = false -> Z.of_nat m < bit_time s -> 0 <= k ->
  outp (run s (WSbuf v :: concat (repeat (T2Con false :: repeat Over m ++ [Tick k]) n))) = outp s.
Proof. exact starved. Qed.
Print Assumptions C104_flags_only.
Print Assumptions C104_rate.
Print Assumptions C104_reset.
Print Assumptions C104_stale_rate.
Print Assumptions C104_starved.
Example C104_ex : let s := run (power_on u0) [WScon 192; WPcon 128] in reached s [WScon 192; WPcon 128] /\ rate_ok s /\ t2b s = false /\ clocked s = false /\ bit_time s = 16.
Proof. cbv zeta. split; [exists u0; split; [cbn; lia|]; split; [repeat constructor; cbn; lia|reflexivity]|]. split; [right; reflexivity|]. split; [reflexivity|]. split; reflexivity. Qed.
Print Assumptions C103_mixed.
