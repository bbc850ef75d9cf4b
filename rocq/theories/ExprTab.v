(** Generated by tools/genparse.py from /repo/src/core/cmd.src/cmdpars.y: the LALR(1) tables
    bison builds for its grammar (shift preferred to reduce; the most frequent reduction of
    a state is its default).  Rules are cited with the lines of cmdpars.y. *)
From Verif Require Import Base.

(** ** Tokens: cmdpars.y:14-51 PTOK_PLUS *)
Definition PTOK_END : Z := 0.
Definition PTOK_NUMBER : Z := 1.
Definition PTOK_CELL : Z := 2.
Definition PTOK_LEFT_PAREN : Z := 3.
Definition PTOK_RIGHT_PAREN : Z := 4.
Definition PTOK_INC_OP : Z := 5.
Definition PTOK_DEC_OP : Z := 6.
Definition PTOK_AMPERSAND : Z := 7.
Definition PTOK_MINUS : Z := 8.
Definition PTOK_PLUS : Z := 9.
Definition PTOK_TILDE : Z := 10.
Definition PTOK_EXCLAMATION : Z := 11.
Definition PTOK_INT : Z := 12.
Definition PTOK_ASTERIX : Z := 13.
Definition PTOK_SLASH : Z := 14.
Definition PTOK_PERCENT : Z := 15.
Definition PTOK_LEFT_OP : Z := 16.
Definition PTOK_RIGHT_OP : Z := 17.
Definition PTOK_LESS : Z := 18.
Definition PTOK_GREATER : Z := 19.
Definition PTOK_LE_OP : Z := 20.
Definition PTOK_GE_OP : Z := 21.
Definition PTOK_EQ_OP : Z := 22.
Definition PTOK_NE_OP : Z := 23.
Definition PTOK_CIRCUM : Z := 24.
Definition PTOK_PIPE : Z := 25.
Definition PTOK_AND_OP : Z := 26.
Definition PTOK_OR_OP : Z := 27.
Definition PTOK_QUESTION : Z := 28.
Definition PTOK_COLON : Z := 29.
Definition PTOK_EQUAL : Z := 30.
Definition PTOK_MUL_ASSIGN : Z := 31.
Definition PTOK_DIV_ASSIGN : Z := 32.
Definition PTOK_MOD_ASSIGN : Z := 33.
Definition PTOK_ADD_ASSIGN : Z := 34.
Definition PTOK_SUB_ASSIGN : Z := 35.
Definition PTOK_LEFT_ASSIGN : Z := 36.
Definition PTOK_RIGHT_ASSIGN : Z := 37.
Definition PTOK_AND_ASSIGN : Z := 38.
Definition PTOK_XOR_ASSIGN : Z := 39.
Definition PTOK_OR_ASSIGN : Z := 40.
Definition PTOK_COMMA : Z := 41.
Definition PTOK_MEMORY : Z := 42.
Definition PTOK_MEMORY_OBJECT : Z := 43.
Definition PTOK_LEFT_BRACKET : Z := 44.
Definition PTOK_RIGHT_BRACKET : Z := 45.
Definition PTOK_BITS : Z := 46.
Definition PTOK_DOT : Z := 47.

(** ** Nonterminals *)
Definition nt_ucsim_grammar : Z := 1.
Definition nt_primary_expr : Z := 2.
Definition nt_postfix_expr : Z := 3.
Definition nt_unary_expr : Z := 4.
Definition nt_cast_expr : Z := 5.
Definition nt_type_name : Z := 6.
Definition nt_multiplicative_expr : Z := 7.
Definition nt_additive_expr : Z := 8.
Definition nt_shift_expr : Z := 9.
Definition nt_relational_expr : Z := 10.
Definition nt_equality_expr : Z := 11.
Definition nt_and_expr : Z := 12.
Definition nt_exclusive_or_expr : Z := 13.
Definition nt_inclusive_or_expr : Z := 14.
Definition nt_logical_and_expr : Z := 15.
Definition nt_logical_or_expr : Z := 16.
Definition nt_conditional_expr : Z := 17.
Definition nt_assignment_expr : Z := 18.
Definition nt_assignment_operator : Z := 19.
Definition nt_expr : Z := 20.
Definition nt_memory : Z := 21.
Definition nt_bit : Z := 22.

(** ** Rules: left side, length of the right side *)
Definition rules : list (Z * Z) := [
  (0, 2) (* 0: $accept: ucsim_grammar $end *);
  (nt_ucsim_grammar, 1) (* 1: ucsim_grammar: expr, cmdpars.y:78-78 expr *);
  (nt_primary_expr, 1) (* 2: primary_expr: memory, cmdpars.y:144-144 memory *);
  (nt_primary_expr, 1) (* 3: primary_expr: bit, cmdpars.y:145-145 bit *);
  (nt_primary_expr, 1) (* 4: primary_expr: PTOK_NUMBER, cmdpars.y:151-151 PTOK_NUMBER *);
  (nt_primary_expr, 1) (* 5: primary_expr: PTOK_CELL, cmdpars.y:152-152 PTOK_CELL *);
  (nt_primary_expr, 3) (* 6: primary_expr: PTOK_LEFT_PAREN expr PTOK_RIGHT_PAREN, cmdpars.y:154-154 PTOK_LEFT_PAREN *);
  (nt_postfix_expr, 1) (* 7: postfix_expr: primary_expr, cmdpars.y:159-159 primary_expr *);
  (nt_postfix_expr, 2) (* 8: postfix_expr: memory PTOK_INC_OP, cmdpars.y:166-166 memory *);
  (nt_postfix_expr, 2) (* 9: postfix_expr: PTOK_CELL PTOK_INC_OP, cmdpars.y:171-171 PTOK_CELL *);
  (nt_postfix_expr, 2) (* 10: postfix_expr: memory PTOK_DEC_OP, cmdpars.y:177-177 memory *);
  (nt_postfix_expr, 2) (* 11: postfix_expr: PTOK_CELL PTOK_DEC_OP, cmdpars.y:182-182 PTOK_CELL *);
  (nt_unary_expr, 1) (* 12: unary_expr: postfix_expr, cmdpars.y:196-196 postfix_expr *);
  (nt_unary_expr, 2) (* 13: unary_expr: PTOK_INC_OP memory, cmdpars.y:198-198 PTOK_INC_OP *);
  (nt_unary_expr, 2) (* 14: unary_expr: PTOK_INC_OP PTOK_CELL, cmdpars.y:204-204 PTOK_INC_OP *);
  (nt_unary_expr, 2) (* 15: unary_expr: PTOK_DEC_OP memory, cmdpars.y:211-211 PTOK_DEC_OP *);
  (nt_unary_expr, 2) (* 16: unary_expr: PTOK_DEC_OP PTOK_CELL, cmdpars.y:217-217 PTOK_DEC_OP *);
  (nt_unary_expr, 2) (* 17: unary_expr: PTOK_AMPERSAND memory, cmdpars.y:225-225 PTOK_AMPERSAND *);
  (nt_unary_expr, 2) (* 18: unary_expr: PTOK_AMPERSAND bit, cmdpars.y:226-226 PTOK_AMPERSAND *);
  (nt_unary_expr, 2) (* 19: unary_expr: PTOK_MINUS unary_expr, cmdpars.y:235-235 PTOK_MINUS *);
  (nt_unary_expr, 2) (* 20: unary_expr: PTOK_PLUS unary_expr, cmdpars.y:236-236 PTOK_PLUS *);
  (nt_unary_expr, 2) (* 21: unary_expr: PTOK_TILDE unary_expr, cmdpars.y:237-237 PTOK_TILDE *);
  (nt_unary_expr, 2) (* 22: unary_expr: PTOK_EXCLAMATION unary_expr, cmdpars.y:238-238 PTOK_EXCLAMATION *);
  (nt_cast_expr, 1) (* 23: cast_expr: unary_expr, cmdpars.y:258-258 unary_expr *);
  (nt_cast_expr, 4) (* 24: cast_expr: PTOK_LEFT_PAREN type_name PTOK_RIGHT_PAREN memory, cmdpars.y:259-259 PTOK_LEFT_PAREN *);
  (nt_type_name, 1) (* 25: type_name: PTOK_INT, cmdpars.y:274-274 PTOK_INT *);
  (nt_multiplicative_expr, 1) (* 26: multiplicative_expr: cast_expr, cmdpars.y:278-278 cast_expr *);
  (nt_multiplicative_expr, 3) (* 27: multiplicative_expr: multiplicative_expr PTOK_ASTERIX cast_expr, cmdpars.y:279-279 multiplicative_expr *);
  (nt_multiplicative_expr, 3) (* 28: multiplicative_expr: multiplicative_expr PTOK_SLASH cast_expr, cmdpars.y:280-280 multiplicative_expr *);
  (nt_multiplicative_expr, 3) (* 29: multiplicative_expr: multiplicative_expr PTOK_PERCENT cast_expr, cmdpars.y:281-281 multiplicative_expr *);
  (nt_additive_expr, 1) (* 30: additive_expr: multiplicative_expr, cmdpars.y:285-285 multiplicative_expr *);
  (nt_additive_expr, 3) (* 31: additive_expr: additive_expr PTOK_PLUS multiplicative_expr, cmdpars.y:286-286 additive_expr *);
  (nt_additive_expr, 3) (* 32: additive_expr: additive_expr PTOK_MINUS multiplicative_expr, cmdpars.y:287-287 additive_expr *);
  (nt_shift_expr, 1) (* 33: shift_expr: additive_expr, cmdpars.y:291-291 additive_expr *);
  (nt_shift_expr, 3) (* 34: shift_expr: shift_expr PTOK_LEFT_OP additive_expr, cmdpars.y:292-292 shift_expr *);
  (nt_shift_expr, 3) (* 35: shift_expr: shift_expr PTOK_RIGHT_OP additive_expr, cmdpars.y:293-293 shift_expr *);
  (nt_relational_expr, 1) (* 36: relational_expr: shift_expr, cmdpars.y:297-297 shift_expr *);
  (nt_relational_expr, 3) (* 37: relational_expr: relational_expr PTOK_LESS shift_expr, cmdpars.y:298-298 relational_expr *);
  (nt_relational_expr, 3) (* 38: relational_expr: relational_expr PTOK_GREATER shift_expr, cmdpars.y:299-299 relational_expr *);
  (nt_relational_expr, 3) (* 39: relational_expr: relational_expr PTOK_LE_OP shift_expr, cmdpars.y:300-300 relational_expr *);
  (nt_relational_expr, 3) (* 40: relational_expr: relational_expr PTOK_GE_OP shift_expr, cmdpars.y:301-301 relational_expr *);
  (nt_equality_expr, 1) (* 41: equality_expr: relational_expr, cmdpars.y:305-305 relational_expr *);
  (nt_equality_expr, 3) (* 42: equality_expr: equality_expr PTOK_EQ_OP relational_expr, cmdpars.y:306-306 equality_expr *);
  (nt_equality_expr, 3) (* 43: equality_expr: equality_expr PTOK_NE_OP relational_expr, cmdpars.y:307-307 equality_expr *);
  (nt_and_expr, 1) (* 44: and_expr: equality_expr, cmdpars.y:311-311 equality_expr *);
  (nt_and_expr, 3) (* 45: and_expr: and_expr PTOK_AMPERSAND equality_expr, cmdpars.y:312-312 and_expr *);
  (nt_exclusive_or_expr, 1) (* 46: exclusive_or_expr: and_expr, cmdpars.y:316-316 and_expr *);
  (nt_exclusive_or_expr, 3) (* 47: exclusive_or_expr: exclusive_or_expr PTOK_CIRCUM and_expr, cmdpars.y:317-317 exclusive_or_expr *);
  (nt_inclusive_or_expr, 1) (* 48: inclusive_or_expr: exclusive_or_expr, cmdpars.y:321-321 exclusive_or_expr *);
  (nt_inclusive_or_expr, 3) (* 49: inclusive_or_expr: inclusive_or_expr PTOK_PIPE exclusive_or_expr, cmdpars.y:322-322 inclusive_or_expr *);
  (nt_logical_and_expr, 1) (* 50: logical_and_expr: inclusive_or_expr, cmdpars.y:326-326 inclusive_or_expr *);
  (nt_logical_and_expr, 3) (* 51: logical_and_expr: logical_and_expr PTOK_AND_OP inclusive_or_expr, cmdpars.y:327-327 logical_and_expr *);
  (nt_logical_or_expr, 1) (* 52: logical_or_expr: logical_and_expr, cmdpars.y:331-331 logical_and_expr *);
  (nt_logical_or_expr, 3) (* 53: logical_or_expr: logical_or_expr PTOK_OR_OP logical_and_expr, cmdpars.y:332-332 logical_or_expr *);
  (nt_conditional_expr, 1) (* 54: conditional_expr: logical_or_expr, cmdpars.y:336-336 logical_or_expr *);
  (nt_conditional_expr, 5) (* 55: conditional_expr: logical_or_expr PTOK_QUESTION expr PTOK_COLON conditional_expr, cmdpars.y:337-337 logical_or_expr *);
  (nt_assignment_expr, 1) (* 56: assignment_expr: conditional_expr, cmdpars.y:341-341 conditional_expr *);
  (nt_assignment_expr, 3) (* 57: assignment_expr: memory assignment_operator assignment_expr, cmdpars.y:344-344 memory *);
  (nt_assignment_expr, 3) (* 58: assignment_expr: bit PTOK_EQUAL assignment_expr, cmdpars.y:386-386 bit *);
  (nt_assignment_expr, 3) (* 59: assignment_expr: PTOK_CELL assignment_operator assignment_expr, cmdpars.y:394-394 PTOK_CELL *);
  (nt_assignment_operator, 1) (* 60: assignment_operator: PTOK_EQUAL, cmdpars.y:439-439 PTOK_EQUAL *);
  (nt_assignment_operator, 1) (* 61: assignment_operator: PTOK_MUL_ASSIGN, cmdpars.y:440-440 PTOK_MUL_ASSIGN *);
  (nt_assignment_operator, 1) (* 62: assignment_operator: PTOK_DIV_ASSIGN, cmdpars.y:441-441 PTOK_DIV_ASSIGN *);
  (nt_assignment_operator, 1) (* 63: assignment_operator: PTOK_MOD_ASSIGN, cmdpars.y:442-442 PTOK_MOD_ASSIGN *);
  (nt_assignment_operator, 1) (* 64: assignment_operator: PTOK_ADD_ASSIGN, cmdpars.y:443-443 PTOK_ADD_ASSIGN *);
  (nt_assignment_operator, 1) (* 65: assignment_operator: PTOK_SUB_ASSIGN, cmdpars.y:444-444 PTOK_SUB_ASSIGN *);
  (nt_assignment_operator, 1) (* 66: assignment_operator: PTOK_LEFT_ASSIGN, cmdpars.y:445-445 PTOK_LEFT_ASSIGN *);
  (nt_assignment_operator, 1) (* 67: assignment_operator: PTOK_RIGHT_ASSIGN, cmdpars.y:446-446 PTOK_RIGHT_ASSIGN *);
  (nt_assignment_operator, 1) (* 68: assignment_operator: PTOK_AND_ASSIGN, cmdpars.y:447-447 PTOK_AND_ASSIGN *);
  (nt_assignment_operator, 1) (* 69: assignment_operator: PTOK_XOR_ASSIGN, cmdpars.y:448-448 PTOK_XOR_ASSIGN *);
  (nt_assignment_operator, 1) (* 70: assignment_operator: PTOK_OR_ASSIGN, cmdpars.y:449-449 PTOK_OR_ASSIGN *);
  (nt_expr, 1) (* 71: expr: assignment_expr, cmdpars.y:453-453 assignment_expr *);
  (nt_expr, 3) (* 72: expr: expr PTOK_COMMA assignment_expr, cmdpars.y:454-454 expr *);
  (nt_memory, 1) (* 73: memory: PTOK_MEMORY, cmdpars.y:458-458 PTOK_MEMORY *);
  (nt_memory, 4) (* 74: memory: PTOK_MEMORY_OBJECT PTOK_LEFT_BRACKET expr PTOK_RIGHT_BRACKET, cmdpars.y:459-459 PTOK_MEMORY_OBJECT *);
  (nt_bit, 1) (* 75: bit: PTOK_BITS, cmdpars.y:467-467 PTOK_BITS *);
  (nt_bit, 3) (* 76: bit: memory PTOK_DOT expr, cmdpars.y:468-468 memory *);
  (nt_bit, 6) (* 77: bit: memory PTOK_LEFT_BRACKET expr PTOK_COLON expr PTOK_RIGHT_BRACKET, cmdpars.y:478-478 memory *)
].
Definition nrules : Z := 78.
Definition nstates : Z := 128.
Definition final : Z := 66.

(** ** Actions of a state: per token a shift (0 + state) or reduction (1000 + rule) *)
Definition act_rows : list (list (Z * Z)) := [
  [(1, 1); (2, 2); (3, 3); (5, 4); (6, 5); (7, 6); (8, 7); (9, 8); (10, 9); (11, 10); (42, 11); (43, 12); (46, 13)];
  [];
  [(5, 34); (6, 35); (30, 36); (31, 37); (32, 38); (33, 39); (34, 40); (35, 41); (36, 42); (37, 43); (38, 44); (39, 45); (40, 46)];
  [(1, 1); (2, 2); (3, 3); (5, 4); (6, 5); (7, 6); (8, 7); (9, 8); (10, 9); (11, 10); (12, 48); (42, 11); (43, 12); (46, 13)];
  [(2, 51); (42, 11); (43, 12)];
  [(2, 53); (42, 11); (43, 12)];
  [(42, 11); (43, 12); (46, 13)];
  [(1, 1); (2, 57); (3, 58); (5, 4); (6, 5); (7, 6); (8, 7); (9, 8); (10, 9); (11, 10); (42, 11); (43, 12); (46, 13)];
  [(1, 1); (2, 57); (3, 58); (5, 4); (6, 5); (7, 6); (8, 7); (9, 8); (10, 9); (11, 10); (42, 11); (43, 12); (46, 13)];
  [(1, 1); (2, 57); (3, 58); (5, 4); (6, 5); (7, 6); (8, 7); (9, 8); (10, 9); (11, 10); (42, 11); (43, 12); (46, 13)];
  [(1, 1); (2, 57); (3, 58); (5, 4); (6, 5); (7, 6); (8, 7); (9, 8); (10, 9); (11, 10); (42, 11); (43, 12); (46, 13)];
  [];
  [(44, 65)];
  [];
  [(0, 66)];
  [];
  [];
  [];
  [];
  [(13, 67); (14, 68); (15, 69)];
  [(8, 70); (9, 71)];
  [(16, 72); (17, 73)];
  [(18, 74); (19, 75); (20, 76); (21, 77)];
  [(22, 78); (23, 79)];
  [(7, 80)];
  [(24, 81)];
  [(25, 82)];
  [(26, 83)];
  [(27, 84); (28, 85)];
  [];
  [];
  [(41, 86)];
  [(5, 87); (6, 88); (30, 36); (31, 37); (32, 38); (33, 39); (34, 40); (35, 41); (36, 42); (37, 43); (38, 44); (39, 45); (40, 46); (44, 89); (47, 90)];
  [(30, 92)];
  [];
  [];
  [];
  [];
  [];
  [];
  [];
  [];
  [];
  [];
  [];
  [];
  [];
  [(1, 1); (2, 2); (3, 3); (5, 4); (6, 5); (7, 6); (8, 7); (9, 8); (10, 9); (11, 10); (42, 11); (43, 12); (46, 13)];
  [];
  [(4, 94)];
  [(4, 95); (41, 86)];
  [];
  [];
  [];
  [];
  [(44, 89); (47, 90)];
  [];
  [(5, 34); (6, 35)];
  [(1, 1); (2, 2); (3, 3); (5, 4); (6, 5); (7, 6); (8, 7); (9, 8); (10, 9); (11, 10); (42, 11); (43, 12); (46, 13)];
  [];
  [(5, 87); (6, 88); (44, 89); (47, 90)];
  [];
  [];
  [];
  [];
  [(1, 1); (2, 2); (3, 3); (5, 4); (6, 5); (7, 6); (8, 7); (9, 8); (10, 9); (11, 10); (42, 11); (43, 12); (46, 13)];
  [];
  [(1, 1); (2, 57); (3, 3); (5, 4); (6, 5); (7, 6); (8, 7); (9, 8); (10, 9); (11, 10); (42, 11); (43, 12); (46, 13)];
  [(1, 1); (2, 57); (3, 3); (5, 4); (6, 5); (7, 6); (8, 7); (9, 8); (10, 9); (11, 10); (42, 11); (43, 12); (46, 13)];
  [(1, 1); (2, 57); (3, 3); (5, 4); (6, 5); (7, 6); (8, 7); (9, 8); (10, 9); (11, 10); (42, 11); (43, 12); (46, 13)];
  [(1, 1); (2, 57); (3, 3); (5, 4); (6, 5); (7, 6); (8, 7); (9, 8); (10, 9); (11, 10); (42, 11); (43, 12); (46, 13)];
  [(1, 1); (2, 57); (3, 3); (5, 4); (6, 5); (7, 6); (8, 7); (9, 8); (10, 9); (11, 10); (42, 11); (43, 12); (46, 13)];
  [(1, 1); (2, 57); (3, 3); (5, 4); (6, 5); (7, 6); (8, 7); (9, 8); (10, 9); (11, 10); (42, 11); (43, 12); (46, 13)];
  [(1, 1); (2, 57); (3, 3); (5, 4); (6, 5); (7, 6); (8, 7); (9, 8); (10, 9); (11, 10); (42, 11); (43, 12); (46, 13)];
  [(1, 1); (2, 57); (3, 3); (5, 4); (6, 5); (7, 6); (8, 7); (9, 8); (10, 9); (11, 10); (42, 11); (43, 12); (46, 13)];
  [(1, 1); (2, 57); (3, 3); (5, 4); (6, 5); (7, 6); (8, 7); (9, 8); (10, 9); (11, 10); (42, 11); (43, 12); (46, 13)];
  [(1, 1); (2, 57); (3, 3); (5, 4); (6, 5); (7, 6); (8, 7); (9, 8); (10, 9); (11, 10); (42, 11); (43, 12); (46, 13)];
  [(1, 1); (2, 57); (3, 3); (5, 4); (6, 5); (7, 6); (8, 7); (9, 8); (10, 9); (11, 10); (42, 11); (43, 12); (46, 13)];
  [(1, 1); (2, 57); (3, 3); (5, 4); (6, 5); (7, 6); (8, 7); (9, 8); (10, 9); (11, 10); (42, 11); (43, 12); (46, 13)];
  [(1, 1); (2, 57); (3, 3); (5, 4); (6, 5); (7, 6); (8, 7); (9, 8); (10, 9); (11, 10); (42, 11); (43, 12); (46, 13)];
  [(1, 1); (2, 57); (3, 3); (5, 4); (6, 5); (7, 6); (8, 7); (9, 8); (10, 9); (11, 10); (42, 11); (43, 12); (46, 13)];
  [(1, 1); (2, 57); (3, 3); (5, 4); (6, 5); (7, 6); (8, 7); (9, 8); (10, 9); (11, 10); (42, 11); (43, 12); (46, 13)];
  [(1, 1); (2, 57); (3, 3); (5, 4); (6, 5); (7, 6); (8, 7); (9, 8); (10, 9); (11, 10); (42, 11); (43, 12); (46, 13)];
  [(1, 1); (2, 57); (3, 3); (5, 4); (6, 5); (7, 6); (8, 7); (9, 8); (10, 9); (11, 10); (42, 11); (43, 12); (46, 13)];
  [(1, 1); (2, 57); (3, 3); (5, 4); (6, 5); (7, 6); (8, 7); (9, 8); (10, 9); (11, 10); (42, 11); (43, 12); (46, 13)];
  [(1, 1); (2, 2); (3, 3); (5, 4); (6, 5); (7, 6); (8, 7); (9, 8); (10, 9); (11, 10); (42, 11); (43, 12); (46, 13)];
  [(1, 1); (2, 2); (3, 3); (5, 4); (6, 5); (7, 6); (8, 7); (9, 8); (10, 9); (11, 10); (42, 11); (43, 12); (46, 13)];
  [];
  [];
  [(1, 1); (2, 2); (3, 3); (5, 4); (6, 5); (7, 6); (8, 7); (9, 8); (10, 9); (11, 10); (42, 11); (43, 12); (46, 13)];
  [(1, 1); (2, 2); (3, 3); (5, 4); (6, 5); (7, 6); (8, 7); (9, 8); (10, 9); (11, 10); (42, 11); (43, 12); (46, 13)];
  [(1, 1); (2, 2); (3, 3); (5, 4); (6, 5); (7, 6); (8, 7); (9, 8); (10, 9); (11, 10); (42, 11); (43, 12); (46, 13)];
  [(1, 1); (2, 2); (3, 3); (5, 4); (6, 5); (7, 6); (8, 7); (9, 8); (10, 9); (11, 10); (42, 11); (43, 12); (46, 13)];
  [];
  [(42, 11); (43, 12)];
  [];
  [(41, 86); (45, 122)];
  [];
  [];
  [];
  [(13, 67); (14, 68); (15, 69)];
  [(13, 67); (14, 68); (15, 69)];
  [(8, 70); (9, 71)];
  [(8, 70); (9, 71)];
  [(16, 72); (17, 73)];
  [(16, 72); (17, 73)];
  [(16, 72); (17, 73)];
  [(16, 72); (17, 73)];
  [(18, 74); (19, 75); (20, 76); (21, 77)];
  [(18, 74); (19, 75); (20, 76); (21, 77)];
  [(22, 78); (23, 79)];
  [(7, 80)];
  [(24, 81)];
  [(25, 82)];
  [(26, 83)];
  [(29, 123); (41, 86)];
  [];
  [(29, 124); (41, 86)];
  [(41, 86)];
  [];
  [];
  [];
  [];
  [(1, 1); (2, 57); (3, 3); (5, 4); (6, 5); (7, 6); (8, 7); (9, 8); (10, 9); (11, 10); (42, 11); (43, 12); (46, 13)];
  [(1, 1); (2, 2); (3, 3); (5, 4); (6, 5); (7, 6); (8, 7); (9, 8); (10, 9); (11, 10); (42, 11); (43, 12); (46, 13)];
  [];
  [(41, 86); (45, 127)];
  []
].
(** the default reduction of a state, 0 for none *)
Definition act_defs : list Z := [0; 4; 5; 0; 0; 0; 0; 0; 0; 0; 0; 73; 0; 75; 0; 7; 12; 23; 26; 30; 33; 36; 41; 44; 46; 48; 50; 52; 54; 56; 71; 1; 2; 3; 9; 11; 60; 61; 62; 63; 64; 65; 66; 67; 68; 69; 70; 0; 25; 0; 0; 14; 13; 16; 15; 17; 18; 5; 0; 19; 2; 3; 20; 21; 22; 0; 0; 0; 0; 0; 0; 0; 0; 0; 0; 0; 0; 0; 0; 0; 0; 0; 0; 0; 0; 0; 0; 8; 10; 0; 0; 0; 0; 59; 0; 6; 0; 27; 28; 29; 32; 31; 34; 35; 37; 38; 39; 40; 42; 43; 45; 47; 49; 51; 53; 0; 72; 0; 76; 57; 58; 24; 74; 0; 0; 55; 0; 77].
(** where to go after a reduction *)
Definition goto_rows : list (list (Z * Z)) := [
  [(1, 14); (2, 15); (3, 16); (4, 17); (5, 18); (7, 19); (8, 20); (9, 21); (10, 22); (11, 23); (12, 24); (13, 25); (14, 26); (15, 27); (16, 28); (17, 29); (18, 30); (20, 31); (21, 32); (22, 33)];
  [];
  [(19, 47)];
  [(2, 15); (3, 16); (4, 17); (5, 18); (6, 49); (7, 19); (8, 20); (9, 21); (10, 22); (11, 23); (12, 24); (13, 25); (14, 26); (15, 27); (16, 28); (17, 29); (18, 30); (20, 50); (21, 32); (22, 33)];
  [(21, 52)];
  [(21, 54)];
  [(21, 55); (22, 56)];
  [(2, 15); (3, 16); (4, 59); (21, 60); (22, 61)];
  [(2, 15); (3, 16); (4, 62); (21, 60); (22, 61)];
  [(2, 15); (3, 16); (4, 63); (21, 60); (22, 61)];
  [(2, 15); (3, 16); (4, 64); (21, 60); (22, 61)];
  [];
  [];
  [];
  [];
  [];
  [];
  [];
  [];
  [];
  [];
  [];
  [];
  [];
  [];
  [];
  [];
  [];
  [];
  [];
  [];
  [];
  [(19, 91)];
  [];
  [];
  [];
  [];
  [];
  [];
  [];
  [];
  [];
  [];
  [];
  [];
  [];
  [];
  [(2, 15); (3, 16); (4, 17); (5, 18); (7, 19); (8, 20); (9, 21); (10, 22); (11, 23); (12, 24); (13, 25); (14, 26); (15, 27); (16, 28); (17, 29); (18, 93); (21, 32); (22, 33)];
  [];
  [];
  [];
  [];
  [];
  [];
  [];
  [];
  [];
  [];
  [(2, 15); (3, 16); (4, 17); (5, 18); (7, 19); (8, 20); (9, 21); (10, 22); (11, 23); (12, 24); (13, 25); (14, 26); (15, 27); (16, 28); (17, 29); (18, 30); (20, 50); (21, 32); (22, 33)];
  [];
  [];
  [];
  [];
  [];
  [];
  [(2, 15); (3, 16); (4, 17); (5, 18); (7, 19); (8, 20); (9, 21); (10, 22); (11, 23); (12, 24); (13, 25); (14, 26); (15, 27); (16, 28); (17, 29); (18, 30); (20, 96); (21, 32); (22, 33)];
  [];
  [(2, 15); (3, 16); (4, 17); (5, 97); (21, 60); (22, 61)];
  [(2, 15); (3, 16); (4, 17); (5, 98); (21, 60); (22, 61)];
  [(2, 15); (3, 16); (4, 17); (5, 99); (21, 60); (22, 61)];
  [(2, 15); (3, 16); (4, 17); (5, 18); (7, 100); (21, 60); (22, 61)];
  [(2, 15); (3, 16); (4, 17); (5, 18); (7, 101); (21, 60); (22, 61)];
  [(2, 15); (3, 16); (4, 17); (5, 18); (7, 19); (8, 102); (21, 60); (22, 61)];
  [(2, 15); (3, 16); (4, 17); (5, 18); (7, 19); (8, 103); (21, 60); (22, 61)];
  [(2, 15); (3, 16); (4, 17); (5, 18); (7, 19); (8, 20); (9, 104); (21, 60); (22, 61)];
  [(2, 15); (3, 16); (4, 17); (5, 18); (7, 19); (8, 20); (9, 105); (21, 60); (22, 61)];
  [(2, 15); (3, 16); (4, 17); (5, 18); (7, 19); (8, 20); (9, 106); (21, 60); (22, 61)];
  [(2, 15); (3, 16); (4, 17); (5, 18); (7, 19); (8, 20); (9, 107); (21, 60); (22, 61)];
  [(2, 15); (3, 16); (4, 17); (5, 18); (7, 19); (8, 20); (9, 21); (10, 108); (21, 60); (22, 61)];
  [(2, 15); (3, 16); (4, 17); (5, 18); (7, 19); (8, 20); (9, 21); (10, 109); (21, 60); (22, 61)];
  [(2, 15); (3, 16); (4, 17); (5, 18); (7, 19); (8, 20); (9, 21); (10, 22); (11, 110); (21, 60); (22, 61)];
  [(2, 15); (3, 16); (4, 17); (5, 18); (7, 19); (8, 20); (9, 21); (10, 22); (11, 23); (12, 111); (21, 60); (22, 61)];
  [(2, 15); (3, 16); (4, 17); (5, 18); (7, 19); (8, 20); (9, 21); (10, 22); (11, 23); (12, 24); (13, 112); (21, 60); (22, 61)];
  [(2, 15); (3, 16); (4, 17); (5, 18); (7, 19); (8, 20); (9, 21); (10, 22); (11, 23); (12, 24); (13, 25); (14, 113); (21, 60); (22, 61)];
  [(2, 15); (3, 16); (4, 17); (5, 18); (7, 19); (8, 20); (9, 21); (10, 22); (11, 23); (12, 24); (13, 25); (14, 26); (15, 114); (21, 60); (22, 61)];
  [(2, 15); (3, 16); (4, 17); (5, 18); (7, 19); (8, 20); (9, 21); (10, 22); (11, 23); (12, 24); (13, 25); (14, 26); (15, 27); (16, 28); (17, 29); (18, 30); (20, 115); (21, 32); (22, 33)];
  [(2, 15); (3, 16); (4, 17); (5, 18); (7, 19); (8, 20); (9, 21); (10, 22); (11, 23); (12, 24); (13, 25); (14, 26); (15, 27); (16, 28); (17, 29); (18, 116); (21, 32); (22, 33)];
  [];
  [];
  [(2, 15); (3, 16); (4, 17); (5, 18); (7, 19); (8, 20); (9, 21); (10, 22); (11, 23); (12, 24); (13, 25); (14, 26); (15, 27); (16, 28); (17, 29); (18, 30); (20, 117); (21, 32); (22, 33)];
  [(2, 15); (3, 16); (4, 17); (5, 18); (7, 19); (8, 20); (9, 21); (10, 22); (11, 23); (12, 24); (13, 25); (14, 26); (15, 27); (16, 28); (17, 29); (18, 30); (20, 118); (21, 32); (22, 33)];
  [(2, 15); (3, 16); (4, 17); (5, 18); (7, 19); (8, 20); (9, 21); (10, 22); (11, 23); (12, 24); (13, 25); (14, 26); (15, 27); (16, 28); (17, 29); (18, 119); (21, 32); (22, 33)];
  [(2, 15); (3, 16); (4, 17); (5, 18); (7, 19); (8, 20); (9, 21); (10, 22); (11, 23); (12, 24); (13, 25); (14, 26); (15, 27); (16, 28); (17, 29); (18, 120); (21, 32); (22, 33)];
  [];
  [(21, 121)];
  [];
  [];
  [];
  [];
  [];
  [];
  [];
  [];
  [];
  [];
  [];
  [];
  [];
  [];
  [];
  [];
  [];
  [];
  [];
  [];
  [];
  [];
  [];
  [];
  [];
  [];
  [];
  [];
  [(2, 15); (3, 16); (4, 17); (5, 18); (7, 19); (8, 20); (9, 21); (10, 22); (11, 23); (12, 24); (13, 25); (14, 26); (15, 27); (16, 28); (17, 125); (21, 60); (22, 61)];
  [(2, 15); (3, 16); (4, 17); (5, 18); (7, 19); (8, 20); (9, 21); (10, 22); (11, 23); (12, 24); (13, 25); (14, 26); (15, 27); (16, 28); (17, 29); (18, 30); (20, 126); (21, 32); (22, 33)];
  [];
  [];
  []
].
(** the symbol a state is entered with: a token, or 100 + a nonterminal *)
Definition access : list Z := [-1; 1; 2; 3; 5; 6; 7; 8; 9; 10; 11; 42; 43; 46; 101; 102; 103; 104; 105; 107; 108; 109; 110; 111; 112; 113; 114; 115; 116; 117; 118; 120; 121; 122; 5; 6; 30; 31; 32; 33; 34; 35; 36; 37; 38; 39; 40; 119; 12; 106; 120; 2; 121; 2; 121; 121; 122; 2; 3; 104; 121; 122; 104; 104; 104; 44; 0; 13; 14; 15; 8; 9; 16; 17; 18; 19; 20; 21; 22; 23; 7; 24; 25; 26; 27; 28; 41; 5; 6; 44; 47; 119; 30; 118; 4; 4; 120; 105; 105; 105; 107; 107; 108; 108; 109; 109; 109; 109; 110; 110; 111; 112; 113; 114; 115; 120; 118; 120; 120; 118; 118; 121; 45; 29; 29; 117; 120; 45].
(** the right sides, symbols coded the same way *)
Definition rhs : list (list Z) := [
  [101; 0];
  [120];
  [121];
  [122];
  [1];
  [2];
  [3; 120; 4];
  [102];
  [121; 5];
  [2; 5];
  [121; 6];
  [2; 6];
  [103];
  [5; 121];
  [5; 2];
  [6; 121];
  [6; 2];
  [7; 121];
  [7; 122];
  [8; 104];
  [9; 104];
  [10; 104];
  [11; 104];
  [104];
  [3; 106; 4; 121];
  [12];
  [105];
  [107; 13; 105];
  [107; 14; 105];
  [107; 15; 105];
  [107];
  [108; 9; 107];
  [108; 8; 107];
  [108];
  [109; 16; 108];
  [109; 17; 108];
  [109];
  [110; 18; 109];
  [110; 19; 109];
  [110; 20; 109];
  [110; 21; 109];
  [110];
  [111; 22; 110];
  [111; 23; 110];
  [111];
  [112; 7; 111];
  [112];
  [113; 24; 112];
  [113];
  [114; 25; 113];
  [114];
  [115; 26; 114];
  [115];
  [116; 27; 115];
  [116];
  [116; 28; 120; 29; 117];
  [117];
  [121; 119; 118];
  [122; 30; 118];
  [2; 119; 118];
  [30];
  [31];
  [32];
  [33];
  [34];
  [35];
  [36];
  [37];
  [38];
  [39];
  [40];
  [118];
  [120; 41; 118];
  [42];
  [43; 44; 120; 45];
  [46];
  [121; 47; 120];
  [121; 44; 120; 29; 120; 45]
].
