(** Model of the table of instruction names of the MCS51, and of the functions
    of cl_uc that look an instruction up in it. *)
From Verif Require Import Base S51Model.

(** stypes.h:100-109 dis_entry: code, mask, branch (character code), length,
    is_call; the mnemonic is not modelled. *)
Record dis_entry := mkDis { d_code : Z; d_mask : Z; d_branch : Z; d_length : Z; d_call : bool }.

(** s51.src/glob.cc:39-297 disass_51; the terminating entry is not in the list *)
Definition disass_51 : list dis_entry := [
  mkDis 0x00 0xff 32 1 false;
  mkDis 0x01 0xff 65 2 false;
  mkDis 0x02 0xff 76 3 false;
  mkDis 0x03 0xff 32 1 false;
  mkDis 0x04 0xff 32 1 false;
  mkDis 0x05 0xff 32 2 false;
  mkDis 0x06 0xff 32 1 false;
  mkDis 0x07 0xff 32 1 false;
  mkDis 0x08 0xff 32 1 false;
  mkDis 0x09 0xff 32 1 false;
  mkDis 0x0a 0xff 32 1 false;
  mkDis 0x0b 0xff 32 1 false;
  mkDis 0x0c 0xff 32 1 false;
  mkDis 0x0d 0xff 32 1 false;
  mkDis 0x0e 0xff 32 1 false;
  mkDis 0x0f 0xff 32 1 false;
  mkDis 0x10 0xff 82 3 false;
  mkDis 0x11 0xff 97 2 false;
  mkDis 0x12 0xff 108 3 true;
  mkDis 0x13 0xff 32 1 false;
  mkDis 0x14 0xff 32 1 false;
  mkDis 0x15 0xff 32 2 false;
  mkDis 0x16 0xff 32 1 false;
  mkDis 0x17 0xff 32 1 false;
  mkDis 0x18 0xff 32 1 false;
  mkDis 0x19 0xff 32 1 false;
  mkDis 0x1a 0xff 32 1 false;
  mkDis 0x1b 0xff 32 1 false;
  mkDis 0x1c 0xff 32 1 false;
  mkDis 0x1d 0xff 32 1 false;
  mkDis 0x1e 0xff 32 1 false;
  mkDis 0x1f 0xff 32 1 false;
  mkDis 0x20 0xff 82 3 false;
  mkDis 0x21 0xff 65 2 false;
  mkDis 0x22 0xff 95 1 false;
  mkDis 0x23 0xff 32 1 false;
  mkDis 0x24 0xff 32 2 false;
  mkDis 0x25 0xff 32 2 false;
  mkDis 0x26 0xff 32 1 false;
  mkDis 0x27 0xff 32 1 false;
  mkDis 0x28 0xff 32 1 false;
  mkDis 0x29 0xff 32 1 false;
  mkDis 0x2a 0xff 32 1 false;
  mkDis 0x2b 0xff 32 1 false;
  mkDis 0x2c 0xff 32 1 false;
  mkDis 0x2d 0xff 32 1 false;
  mkDis 0x2e 0xff 32 1 false;
  mkDis 0x2f 0xff 32 1 false;
  mkDis 0x30 0xff 82 3 false;
  mkDis 0x31 0xff 97 2 true;
  mkDis 0x32 0xff 95 1 false;
  mkDis 0x33 0xff 32 1 false;
  mkDis 0x34 0xff 32 2 false;
  mkDis 0x35 0xff 32 2 false;
  mkDis 0x36 0xff 32 1 false;
  mkDis 0x37 0xff 32 1 false;
  mkDis 0x38 0xff 32 1 false;
  mkDis 0x39 0xff 32 1 false;
  mkDis 0x3a 0xff 32 1 false;
  mkDis 0x3b 0xff 32 1 false;
  mkDis 0x3c 0xff 32 1 false;
  mkDis 0x3d 0xff 32 1 false;
  mkDis 0x3e 0xff 32 1 false;
  mkDis 0x3f 0xff 32 1 false;
  mkDis 0x40 0xff 114 2 false;
  mkDis 0x41 0xff 65 2 false;
  mkDis 0x42 0xff 32 2 false;
  mkDis 0x43 0xff 32 3 false;
  mkDis 0x44 0xff 32 2 false;
  mkDis 0x45 0xff 32 2 false;
  mkDis 0x46 0xff 32 1 false;
  mkDis 0x47 0xff 32 1 false;
  mkDis 0x48 0xff 32 1 false;
  mkDis 0x49 0xff 32 1 false;
  mkDis 0x4a 0xff 32 1 false;
  mkDis 0x4b 0xff 32 1 false;
  mkDis 0x4c 0xff 32 1 false;
  mkDis 0x4d 0xff 32 1 false;
  mkDis 0x4e 0xff 32 1 false;
  mkDis 0x4f 0xff 32 1 false;
  mkDis 0x50 0xff 114 2 false;
  mkDis 0x51 0xff 97 2 true;
  mkDis 0x52 0xff 32 2 false;
  mkDis 0x53 0xff 32 3 false;
  mkDis 0x54 0xff 32 2 false;
  mkDis 0x55 0xff 32 2 false;
  mkDis 0x56 0xff 32 1 false;
  mkDis 0x57 0xff 32 1 false;
  mkDis 0x58 0xff 32 1 false;
  mkDis 0x59 0xff 32 1 false;
  mkDis 0x5a 0xff 32 1 false;
  mkDis 0x5b 0xff 32 1 false;
  mkDis 0x5c 0xff 32 1 false;
  mkDis 0x5d 0xff 32 1 false;
  mkDis 0x5e 0xff 32 1 false;
  mkDis 0x5f 0xff 32 1 false;
  mkDis 0x60 0xff 114 2 false;
  mkDis 0x61 0xff 65 2 false;
  mkDis 0x62 0xff 32 2 false;
  mkDis 0x63 0xff 32 3 false;
  mkDis 0x64 0xff 32 2 false;
  mkDis 0x65 0xff 32 2 false;
  mkDis 0x66 0xff 32 1 false;
  mkDis 0x67 0xff 32 1 false;
  mkDis 0x68 0xff 32 1 false;
  mkDis 0x69 0xff 32 1 false;
  mkDis 0x6a 0xff 32 1 false;
  mkDis 0x6b 0xff 32 1 false;
  mkDis 0x6c 0xff 32 1 false;
  mkDis 0x6d 0xff 32 1 false;
  mkDis 0x6e 0xff 32 1 false;
  mkDis 0x6f 0xff 32 1 false;
  mkDis 0x70 0xff 114 2 false;
  mkDis 0x71 0xff 97 2 true;
  mkDis 0x72 0xff 32 2 false;
  mkDis 0x73 0xff 95 1 false;
  mkDis 0x74 0xff 32 2 false;
  mkDis 0x75 0xff 32 3 false;
  mkDis 0x76 0xff 32 2 false;
  mkDis 0x77 0xff 32 2 false;
  mkDis 0x78 0xff 32 2 false;
  mkDis 0x79 0xff 32 2 false;
  mkDis 0x7a 0xff 32 2 false;
  mkDis 0x7b 0xff 32 2 false;
  mkDis 0x7c 0xff 32 2 false;
  mkDis 0x7d 0xff 32 2 false;
  mkDis 0x7e 0xff 32 2 false;
  mkDis 0x7f 0xff 32 2 false;
  mkDis 0x80 0xff 115 2 false;
  mkDis 0x81 0xff 65 2 false;
  mkDis 0x82 0xff 32 2 false;
  mkDis 0x83 0xff 32 1 false;
  mkDis 0x84 0xff 32 1 false;
  mkDis 0x85 0xff 32 3 false;
  mkDis 0x86 0xff 32 2 false;
  mkDis 0x87 0xff 32 2 false;
  mkDis 0x88 0xff 32 2 false;
  mkDis 0x89 0xff 32 2 false;
  mkDis 0x8a 0xff 32 2 false;
  mkDis 0x8b 0xff 32 2 false;
  mkDis 0x8c 0xff 32 2 false;
  mkDis 0x8d 0xff 32 2 false;
  mkDis 0x8e 0xff 32 2 false;
  mkDis 0x8f 0xff 32 2 false;
  mkDis 0x90 0xff 32 3 false;
  mkDis 0x91 0xff 97 2 true;
  mkDis 0x92 0xff 32 2 false;
  mkDis 0x93 0xff 32 1 false;
  mkDis 0x94 0xff 32 2 false;
  mkDis 0x95 0xff 32 2 false;
  mkDis 0x96 0xff 32 1 false;
  mkDis 0x97 0xff 32 1 false;
  mkDis 0x98 0xff 32 1 false;
  mkDis 0x99 0xff 32 1 false;
  mkDis 0x9a 0xff 32 1 false;
  mkDis 0x9b 0xff 32 1 false;
  mkDis 0x9c 0xff 32 1 false;
  mkDis 0x9d 0xff 32 1 false;
  mkDis 0x9e 0xff 32 1 false;
  mkDis 0x9f 0xff 32 1 false;
  mkDis 0xa0 0xff 32 2 false;
  mkDis 0xa1 0xff 65 2 false;
  mkDis 0xa2 0xff 32 2 false;
  mkDis 0xa3 0xff 32 1 false;
  mkDis 0xa4 0xff 32 1 false;
  mkDis 0xa5 0xff 95 1 false;
  mkDis 0xa6 0xff 32 2 false;
  mkDis 0xa7 0xff 32 2 false;
  mkDis 0xa8 0xff 32 2 false;
  mkDis 0xa9 0xff 32 2 false;
  mkDis 0xaa 0xff 32 2 false;
  mkDis 0xab 0xff 32 2 false;
  mkDis 0xac 0xff 32 2 false;
  mkDis 0xad 0xff 32 2 false;
  mkDis 0xae 0xff 32 2 false;
  mkDis 0xaf 0xff 32 2 false;
  mkDis 0xb0 0xff 32 2 false;
  mkDis 0xb1 0xff 97 2 true;
  mkDis 0xb2 0xff 32 2 false;
  mkDis 0xb3 0xff 32 1 false;
  mkDis 0xb4 0xff 82 3 false;
  mkDis 0xb5 0xff 82 3 false;
  mkDis 0xb6 0xff 82 3 false;
  mkDis 0xb7 0xff 82 3 false;
  mkDis 0xb8 0xff 82 3 false;
  mkDis 0xb9 0xff 82 3 false;
  mkDis 0xba 0xff 82 3 false;
  mkDis 0xbb 0xff 82 3 false;
  mkDis 0xbc 0xff 82 3 false;
  mkDis 0xbd 0xff 82 3 false;
  mkDis 0xbe 0xff 82 3 false;
  mkDis 0xbf 0xff 82 3 false;
  mkDis 0xc0 0xff 32 2 false;
  mkDis 0xc1 0xff 65 2 false;
  mkDis 0xc2 0xff 32 2 false;
  mkDis 0xc3 0xff 32 1 false;
  mkDis 0xc4 0xff 32 1 false;
  mkDis 0xc5 0xff 32 2 false;
  mkDis 0xc6 0xff 32 1 false;
  mkDis 0xc7 0xff 32 1 false;
  mkDis 0xc8 0xff 32 1 false;
  mkDis 0xc9 0xff 32 1 false;
  mkDis 0xca 0xff 32 1 false;
  mkDis 0xcb 0xff 32 1 false;
  mkDis 0xcc 0xff 32 1 false;
  mkDis 0xcd 0xff 32 1 false;
  mkDis 0xce 0xff 32 1 false;
  mkDis 0xcf 0xff 32 1 false;
  mkDis 0xd0 0xff 32 2 false;
  mkDis 0xd1 0xff 97 2 true;
  mkDis 0xd2 0xff 32 2 false;
  mkDis 0xd3 0xff 32 1 false;
  mkDis 0xd4 0xff 32 1 false;
  mkDis 0xd5 0xff 82 3 false;
  mkDis 0xd6 0xff 32 1 false;
  mkDis 0xd7 0xff 32 1 false;
  mkDis 0xd8 0xff 114 2 false;
  mkDis 0xd9 0xff 114 2 false;
  mkDis 0xda 0xff 114 2 false;
  mkDis 0xdb 0xff 114 2 false;
  mkDis 0xdc 0xff 114 2 false;
  mkDis 0xdd 0xff 114 2 false;
  mkDis 0xde 0xff 114 2 false;
  mkDis 0xdf 0xff 114 2 false;
  mkDis 0xe0 0xff 32 1 false;
  mkDis 0xe1 0xff 65 2 false;
  mkDis 0xe2 0xff 32 1 false;
  mkDis 0xe3 0xff 32 1 false;
  mkDis 0xe4 0xff 32 1 false;
  mkDis 0xe5 0xff 32 2 false;
  mkDis 0xe6 0xff 32 1 false;
  mkDis 0xe7 0xff 32 1 false;
  mkDis 0xe8 0xff 32 1 false;
  mkDis 0xe9 0xff 32 1 false;
  mkDis 0xea 0xff 32 1 false;
  mkDis 0xeb 0xff 32 1 false;
  mkDis 0xec 0xff 32 1 false;
  mkDis 0xed 0xff 32 1 false;
  mkDis 0xee 0xff 32 1 false;
  mkDis 0xef 0xff 32 1 false;
  mkDis 0xf0 0xff 32 1 false;
  mkDis 0xf1 0xff 97 2 true;
  mkDis 0xf2 0xff 32 1 false;
  mkDis 0xf3 0xff 32 1 false;
  mkDis 0xf4 0xff 32 1 false;
  mkDis 0xf5 0xff 32 2 false;
  mkDis 0xf6 0xff 32 1 false;
  mkDis 0xf7 0xff 32 1 false;
  mkDis 0xf8 0xff 32 1 false;
  mkDis 0xf9 0xff 32 1 false;
  mkDis 0xfa 0xff 32 1 false;
  mkDis 0xfb 0xff 32 1 false;
  mkDis 0xfc 0xff 32 1 false;
  mkDis 0xfd 0xff 32 1 false;
  mkDis 0xfe 0xff 32 1 false;
  mkDis 0xff 0xff 32 1 false].

(** The loop of the three functions: first entry whose masked code matches *)
Fixpoint lookup (tbl : list dis_entry) (code : Z) : option dis_entry :=
  match tbl with
  | [] => None
  | e :: r => if Z.land code (d_mask e) =? d_code e then Some e else lookup r code
  end.
(** uc.cc:2626-2638 inst_length *)
Definition inst_length (G : cfg) (addr : Z) : Z :=
  match lookup disass_51 (rom G addr) with Some e => d_length e | None => 1 end.
(** uc.cc:2641-2654 inst_branch; the terminating entry has branch 0 *)
Definition inst_branch (G : cfg) (addr : Z) : Z :=
  match lookup disass_51 (rom G addr) with Some e => d_branch e | None => 0 end.
(** uc.cc:2657-2670 is_call *)
Definition is_call (G : cfg) (addr : Z) : bool :=
  match lookup disass_51 (rom G addr) with Some e => d_call e | None => false end.
(** uc.cc:2673-2686 longest_inst *)
Definition longest_inst : Z := fold_left (fun m e => if m <? d_length e then d_length e else m) disass_51 0.

(** uccl.h:513 next_inst *)
Definition next_inst (G : cfg) (addr : Z) : Z := addr + inst_length G addr.
(** cmd_exec.cc:260-298 COMMAND_DO_WORK_SIM (the command next): the address of
    the dynamic breakpoint it adds, if any, and the number of steps it asks for
    (0: until a breakpoint). [brk_at]: fbrk_at. *)
Definition next_cmd (G : cfg) (brk_at : Z -> bool) (pc : Z) : option Z * Z :=
  let c := is_call G pc in
  ((if c then (let n := next_inst G pc in if brk_at n then None else Some n) else None),
   (if c then 0 else 1)).
