(** Sequences of calls on a string object; [g] is what malloc finds in memory. *)
From Verif Require Import Base ChrModel ChrSpec.

Definition mop (g : nat -> Z) (c : chars) (p : op) : res chars :=
  match p with
  | OAssign s => allocate g s
  | OAppend s => append g c (Ext s)
  | OAppendChar x => append_char g c x
  | OAppendN s n => appendn g c s n
  | OUpper => uppercase g c
  | OLower => lowercase g c
  | OReplaceSet set w => replace_set g c set w
  | OKeep a n => ChrModel.keep g c a n
  | OLtrim => ltrim g c
  | OLrip set => lrip g c set
  | ORrip set => rrip c set
  | ORripN n => rrip_n c n
  end.
Fixpoint mops (g : nat -> nat -> Z) (c : chars) (l : list op) : res chars :=
  match l with [] => Ok c | p :: t => c' <- mop (g (length t)) c p ;; mops g c' t end.
(** [n] calls of token: the values returned *)
Fixpoint tokens (g : nat -> Z) (c : chars) (delims : list Z) (n : nat) : res (list (option (list Z))) :=
  match n with
  | O => Ok []
  | S k => r <- token g c delims ;; v <- cval (fst r) ;; l <- tokens g (snd r) delims k ;; Ok (v :: l)
  end.
