(** The equations of the meaning, one per form. *)
From Verif Require Import Base ExprTab ExprModel ExprSpec.

Lemma e_Num M lazy n w : ev M lazy (Num n) w = (Ok (n, w)).
Proof. reflexivity. Qed.
Lemma e_Get M lazy p w : ev M lazy (Get p) w = (x <- ev_place M lazy p w ;; let '(m, a, w1) := x in Ok (load M w1 m a)).
Proof. reflexivity. Qed.
Lemma e_Reg M lazy c w : ev M lazy (Reg c) w = (Ok (loadr M w c)).
Proof. reflexivity. Qed.
Lemma e_BitOf M lazy p i w : ev M lazy (BitOf p i) w = (x <- ev_place M lazy p w ;; let '(m, a, w1) := x in
      y <- ev M lazy i w1 ;; let '(n, w2) := y in
      let b := signed 32 n in
      if bits_ok b b then Ok (field b b (fst (load M w2 m a)), snd (load M w2 m a)) else UB).
Proof. reflexivity. Qed.
Lemma e_Field M lazy p i j w : ev M lazy (Field p i j) w = (x <- ev_place M lazy p w ;; let '(m, a, w1) := x in
      y <- ev M lazy i w1 ;; let '(n1, w2) := y in
      z <- ev M lazy j w2 ;; let '(n2, w3) := z in
      let lo := signed 32 (Z.min n1 n2) in let hi := signed 32 (Z.max n1 n2) in
      if bits_ok lo hi then Ok (field lo hi (fst (load M w3 m a)), snd (load M w3 m a)) else UB).
Proof. reflexivity. Qed.
Lemma e_Bump M lazy pre d p w : ev M lazy (Bump pre d p) w = (x <- ev_place M lazy p w ;; let '(m, a, w1) := x in
      let '(v, w2) := load M w1 m a in
      let w3 := store M w2 m a (v + d) in
      Ok (if pre then load M w3 m a else (v, w3))).
Proof. reflexivity. Qed.
Lemma e_BumpR M lazy pre d c w : ev M lazy (BumpR pre d c) w = (let '(v, w2) := loadr M w c in
      let w3 := storer M w2 c (v + d) in
      Ok (if pre then loadr M w3 c else (v, w3))).
Proof. reflexivity. Qed.
Lemma e_Addr M lazy p w : ev M lazy (Addr p) w = (x <- ev_place M lazy p w ;; let '(m, a, w1) := x in Ok (a, w1)).
Proof. reflexivity. Qed.
Lemma e_AddrBit M lazy p i w : ev M lazy (AddrBit p i) w = (x <- ev_place M lazy p w ;; let '(m, a, w1) := x in
      y <- ev M lazy i w1 ;; let '(_, w2) := y in Ok (2 ^ 32 - 1, w2)).
Proof. reflexivity. Qed.
Lemma e_AddrField M lazy p i j w : ev M lazy (AddrField p i j) w = (x <- ev_place M lazy p w ;; let '(m, a, w1) := x in
      y <- ev M lazy i w1 ;; let '(_, w2) := y in
      z <- ev M lazy j w2 ;; let '(_, w3) := z in Ok (0, w3)).
Proof. reflexivity. Qed.
Lemma e_Un M lazy o e w : ev M lazy (Un o e) w = (x <- ev M lazy e w ;; let '(n, w1) := x in v <- c_unop o n ;; Ok (v, w1)).
Proof. reflexivity. Qed.
Lemma e_SignExt M lazy p w : ev M lazy (SignExt p) w = (x <- ev_place M lazy p w ;; let '(m, a, w1) := x in
      let '(v, w2) := load M w1 m a in
      if (0 <? m_width M m) && (m_width M m <=? 32) then Ok (sign_extend (m_width M m) v, w2) else UB).
Proof. reflexivity. Qed.
Lemma e_Bin M lazy o a b w : ev M lazy (Bin o a b) w = (x <- ev M lazy a w ;; let '(n1, w1) := x in
      let rest := (y <- ev M lazy b w1 ;; let '(n2, w2) := y in v <- c_binop o n1 n2 ;; Ok (v, w2)) in
      match o with
      | LAnd => if lazy && (n1 =? 0) then Ok (0, w1) else rest
      | LOr => if lazy && negb (n1 =? 0) then Ok (1, w1) else rest
      | _ => rest
      end).
Proof. reflexivity. Qed.
Lemma e_Cond M lazy c a b w : ev M lazy (Cond c a b) w = (x <- ev M lazy c w ;; let '(n, w1) := x in
      if lazy then (if n =? 0 then ev M lazy b w1 else ev M lazy a w1)
      else
        y <- ev M lazy a w1 ;; let '(n1, w2) := y in
        z <- ev M lazy b w2 ;; let '(n2, w3) := z in
        Ok (if n =? 0 then n2 else n1, w3)).
Proof. reflexivity. Qed.
Lemma e_Asg M lazy p o e w : ev M lazy (Asg p o e) w = (x <- ev_place M lazy p w ;; let '(m, a, w1) := x in
      y <- ev M lazy e w1 ;; let '(n, w2) := y in
      let '(old, w3) := load M w2 m a in
      v <- c_assign o old n ;;
      Ok (load M (store M w3 m a v) m a)).
Proof. reflexivity. Qed.
Lemma e_AsgR M lazy c o e w : ev M lazy (AsgR c o e) w = (y <- ev M lazy e w ;; let '(n, w2) := y in
      let '(old, w3) := loadr M w2 c in
      v <- c_assign o old n ;;
      Ok (loadr M (storer M w3 c v) c)).
Proof. reflexivity. Qed.
Lemma e_AsgBit M lazy p i e w : ev M lazy (AsgBit p i e) w = (x <- ev_place M lazy p w ;; let '(m, a, w1) := x in
      y <- ev M lazy i w1 ;; let '(n1, w2) := y in
      z <- ev M lazy e w2 ;; let '(n, w3) := z in
      let b := signed 32 n1 in
      let '(old, w4) := load M w3 m a in
      if bits_ok b b then Ok (put_bits b b old n, store M w4 m a (put_bits b b old n)) else UB).
Proof. reflexivity. Qed.
Lemma e_AsgField M lazy p i j e w : ev M lazy (AsgField p i j e) w = (x <- ev_place M lazy p w ;; let '(m, a, w1) := x in
      y <- ev M lazy i w1 ;; let '(n1, w2) := y in
      z <- ev M lazy j w2 ;; let '(n2, w3) := z in
      u <- ev M lazy e w3 ;; let '(n, w4) := u in
      let lo := signed 32 (Z.min n1 n2) in let hi := signed 32 (Z.max n1 n2) in
      let '(old, w5) := load M w4 m a in
      if bits_ok lo hi || ((hi <? lo) && (0 <=? lo) && (lo <? 64))
      then Ok (put_bits lo hi old n, store M w5 m a (put_bits lo hi old n)) else UB).
Proof. reflexivity. Qed.
Lemma e_Comma M lazy a b w : ev M lazy (Comma a b) w = (x <- ev M lazy a w ;; ev M lazy b (snd x)).
Proof. reflexivity. Qed.
Lemma e_Named M lazy m a w : ev_place M lazy (Named m a) w = (Ok (m, a, w)).
Proof. reflexivity. Qed.
Lemma e_At M lazy m e w : ev_place M lazy (At m e) w = (x <- ev M lazy e w ;; let '(a, w1) := x in Ok (m, a, w1)).
Proof. reflexivity. Qed.
Ltac evc := progress first [rewrite e_Num | rewrite e_Get | rewrite e_Reg | rewrite e_BitOf | rewrite e_Field | rewrite e_Bump | rewrite e_BumpR | rewrite e_Addr | rewrite e_AddrBit | rewrite e_AddrField | rewrite e_Un | rewrite e_SignExt | rewrite e_Bin | rewrite e_Cond | rewrite e_Asg | rewrite e_AsgR | rewrite e_AsgBit | rewrite e_AsgField | rewrite e_Comma | rewrite e_Named | rewrite e_At].
