(** Conformance tests (tests, not proofs): the tables of the project's own unit tests, run on the model.
    Generated by tools/mkconformance2.py from the _test.go files named at each example.  Each example says
    that every row of the table gives the expected value; the rows are compared as they stand. *)
From Verif Require Import Grammar SExp Command TestCase BCDice.
Open Scope string_scope.

(** What a test does with its input: parse it, evaluate it with the dice of the row in a queue, look at the result
    and at the dice recorded. *)
Definition evaluated {A} (f : node -> comp A) (input : string) (ds : list die) : option (A * list die) :=
  match parse_command input with
  | Ok n => match run (f n) (EState (FQueue ds) []) with (Ok a, s) => Some (a, es_log s) | _ => None end
  | _ => None
  end.
Definition executed (input : string) (ds : list die) : option (string * success_check * list die) :=
  match parse_command input with
  | Ok n => match run_command "DiceBot" n (FQueue ds) with (Ok r, _) => Some (message r, r_success r, r_dice r) | _ => None end
  | _ => None
  end.
Definition shown (f : node -> comp node) (input : string) (ds : list die) : option string := option_map (fun p => sexp (fst p)) (evaluated f input ds).
Definition notated (input : string) : option string :=
  match parse_command input with Ok n => match infix_notation n true with Ok s => Some s | _ => None end | _ => None end.
Definition the_eval := eval default_max_rerolls.
Definition threshold_set (input : string) : option string :=
  shown (fun n => match n with
    | NCommand CRRollComp (NInfix (OpCmp op) (NRRollList rolls th) r) =>
        cbind (set_reroll_threshold default_max_rerolls th r) (fun th' => CRet (NCommand CRRollComp (NInfix (OpCmp op) (NRRollList rolls th') r)))
    | _ => CErr "" end) input [].
Definition threshold_checked (input : string) : option (option string * list die) :=
  evaluated (fun n => match n with NRRollList _ th => check_r_roll_threshold default_max_rerolls th | NURollExpr _ th _ => check_u_roll_threshold default_max_rerolls th | _ => CErr "" end) input [].
(** [err] of a row: the evaluation fails *)
Definition unevaluated (input : string) : bool := match parse_command input with Ok _ => match evaluated the_eval input [] with None => true | _ => false end | _ => false end.

(** core/command/execute_d_roll_expr_test.go [TestExecuteDRollExpr] *)
Example test_execute_d_roll_expr :
  [executed "2D6" [Die (5)%Z (6)%Z; Die (3)%Z (6)%Z];
   executed "2D4" [Die (1)%Z (4)%Z; Die (2)%Z (4)%Z];
   executed "2D6+1" [Die (2)%Z (6)%Z; Die (6)%Z (6)%Z];
   executed "1+2D6" [Die (4)%Z (6)%Z; Die (3)%Z (6)%Z];
   executed "2d6+1-1-2-3-4" [Die (1)%Z (6)%Z; Die (6)%Z (6)%Z];
   executed "2D6+4D10" [Die (5)%Z (6)%Z; Die (4)%Z (6)%Z; Die (1)%Z (10)%Z; Die (9)%Z (10)%Z; Die (7)%Z (10)%Z; Die (4)%Z (10)%Z];
   executed "2d6*3" [Die (2)%Z (6)%Z; Die (4)%Z (6)%Z];
   executed "2d10+3-4" [Die (3)%Z (10)%Z; Die (5)%Z (10)%Z];
   executed "2d10+3*4" [Die (3)%Z (10)%Z; Die (5)%Z (10)%Z];
   executed "2d6*3-1d6+1" [Die (6)%Z (6)%Z; Die (2)%Z (6)%Z; Die (3)%Z (6)%Z];
   executed "(2+3)d6-1+3d6+2" [Die (2)%Z (6)%Z; Die (3)%Z (6)%Z; Die (1)%Z (6)%Z; Die (5)%Z (6)%Z; Die (6)%Z (6)%Z; Die (5)%Z (6)%Z; Die (4)%Z (6)%Z; Die (4)%Z (6)%Z];
   executed "(2*3-4)d6-1d4+1" [Die (6)%Z (6)%Z; Die (5)%Z (6)%Z; Die (2)%Z (4)%Z];
   executed "((2+3)*4/3)d6*2+5" [Die (6)%Z (6)%Z; Die (5)%Z (6)%Z; Die (6)%Z (6)%Z; Die (2)%Z (6)%Z; Die (1)%Z (6)%Z; Die (4)%Z (6)%Z];
   executed "1D6/2" [Die (1)%Z (6)%Z];
   executed "3D6/2" [Die (1)%Z (6)%Z; Die (2)%Z (6)%Z; Die (4)%Z (6)%Z];
   executed "3D6/2+1D6" [Die (1)%Z (6)%Z; Die (2)%Z (6)%Z; Die (4)%Z (6)%Z; Die (5)%Z (6)%Z];
   executed "3D6+1D6/2" [Die (1)%Z (6)%Z; Die (2)%Z (6)%Z; Die (4)%Z (6)%Z; Die (5)%Z (6)%Z];
   executed "3D6+1D6/2U" [Die (1)%Z (6)%Z; Die (2)%Z (6)%Z; Die (4)%Z (6)%Z; Die (5)%Z (6)%Z];
   executed "5D6/10" [Die (6)%Z (6)%Z; Die (6)%Z (6)%Z; Die (6)%Z (6)%Z; Die (6)%Z (6)%Z; Die (5)%Z (6)%Z];
   executed "3D6/2U" [Die (1)%Z (6)%Z; Die (2)%Z (6)%Z; Die (4)%Z (6)%Z];
   executed "5D6/10u" [Die (6)%Z (6)%Z; Die (6)%Z (6)%Z; Die (6)%Z (6)%Z; Die (2)%Z (6)%Z; Die (1)%Z (6)%Z];
   executed "1D100/10R" [Die (55)%Z (100)%Z];
   executed "1D100/10r" [Die (54)%Z (100)%Z];
   executed "[1...5]D6" [Die (4)%Z (5)%Z; Die (5)%Z (6)%Z; Die (3)%Z (6)%Z; Die (4)%Z (6)%Z; Die (3)%Z (6)%Z];
   executed "([2...4]+2)D10" [Die (3)%Z (3)%Z; Die (8)%Z (10)%Z; Die (7)%Z (10)%Z; Die (2)%Z (10)%Z; Die (1)%Z (10)%Z; Die (6)%Z (10)%Z; Die (5)%Z (10)%Z];
   executed "[(2+3)...8]D6" [Die (1)%Z (4)%Z; Die (1)%Z (6)%Z; Die (2)%Z (6)%Z; Die (4)%Z (6)%Z; Die (6)%Z (6)%Z; Die (1)%Z (6)%Z];
   executed "[5...(7+1)]D6" [Die (1)%Z (4)%Z; Die (1)%Z (6)%Z; Die (2)%Z (6)%Z; Die (4)%Z (6)%Z; Die (6)%Z (6)%Z; Die (1)%Z (6)%Z];
   executed "2d[1...5]" [Die (2)%Z (5)%Z; Die (1)%Z (2)%Z; Die (2)%Z (2)%Z];
   executed "2d([2...4]+2)" [Die (2)%Z (3)%Z; Die (4)%Z (5)%Z; Die (3)%Z (5)%Z];
   executed "2d[(2+3)...8]" [Die (4)%Z (4)%Z; Die (3)%Z (8)%Z; Die (7)%Z (8)%Z];
   executed "2d[5...(7+1)]" [Die (4)%Z (4)%Z; Die (3)%Z (8)%Z; Die (7)%Z (8)%Z];
   executed "[1...5]d(2*3)" [Die (5)%Z (5)%Z; Die (3)%Z (6)%Z; Die (5)%Z (6)%Z; Die (1)%Z (6)%Z; Die (5)%Z (6)%Z; Die (6)%Z (6)%Z];
   executed "(1+1)d[1...5]" [Die (4)%Z (5)%Z; Die (3)%Z (4)%Z; Die (4)%Z (4)%Z];
   executed "([1...4]+1)d([2...4]+2)-1" [Die (2)%Z (4)%Z; Die (3)%Z (3)%Z; Die (5)%Z (6)%Z; Die (5)%Z (6)%Z; Die (4)%Z (6)%Z]]
  = [Some ("DiceBot : (2D6) ＞ 8[5,3] ＞ 8", Unspecified, [Die (5)%Z (6)%Z; Die (3)%Z (6)%Z]);
     Some ("DiceBot : (2D4) ＞ 3[1,2] ＞ 3", Unspecified, [Die (1)%Z (4)%Z; Die (2)%Z (4)%Z]);
     Some ("DiceBot : (2D6+1) ＞ 8[2,6]+1 ＞ 9", Unspecified, [Die (2)%Z (6)%Z; Die (6)%Z (6)%Z]);
     Some ("DiceBot : (1+2D6) ＞ 1+7[4,3] ＞ 8", Unspecified, [Die (4)%Z (6)%Z; Die (3)%Z (6)%Z]);
     Some ("DiceBot : (2D6+1-1-2-3-4) ＞ 7[1,6]+1-1-2-3-4 ＞ -2", Unspecified, [Die (1)%Z (6)%Z; Die (6)%Z (6)%Z]);
     Some ("DiceBot : (2D6+4D10) ＞ 9[5,4]+21[1,9,7,4] ＞ 30", Unspecified, [Die (5)%Z (6)%Z; Die (4)%Z (6)%Z; Die (1)%Z (10)%Z; Die (9)%Z (10)%Z; Die (7)%Z (10)%Z; Die (4)%Z (10)%Z]);
     Some ("DiceBot : (2D6*3) ＞ 6[2,4]*3 ＞ 18", Unspecified, [Die (2)%Z (6)%Z; Die (4)%Z (6)%Z]);
     Some ("DiceBot : (2D10+3-4) ＞ 8[3,5]+3-4 ＞ 7", Unspecified, [Die (3)%Z (10)%Z; Die (5)%Z (10)%Z]);
     Some ("DiceBot : (2D10+3*4) ＞ 8[3,5]+3*4 ＞ 20", Unspecified, [Die (3)%Z (10)%Z; Die (5)%Z (10)%Z]);
     Some ("DiceBot : (2D6*3-1D6+1) ＞ 8[6,2]*3-3[3]+1 ＞ 22", Unspecified, [Die (6)%Z (6)%Z; Die (2)%Z (6)%Z; Die (3)%Z (6)%Z]);
     Some ("DiceBot : (5D6-1+3D6+2) ＞ 17[2,3,1,5,6]-1+13[5,4,4]+2 ＞ 31", Unspecified, [Die (2)%Z (6)%Z; Die (3)%Z (6)%Z; Die (1)%Z (6)%Z; Die (5)%Z (6)%Z; Die (6)%Z (6)%Z; Die (5)%Z (6)%Z; Die (4)%Z (6)%Z; Die (4)%Z (6)%Z]);
     Some ("DiceBot : (2D6-1D4+1) ＞ 11[6,5]-2[2]+1 ＞ 10", Unspecified, [Die (6)%Z (6)%Z; Die (5)%Z (6)%Z; Die (2)%Z (4)%Z]);
     Some ("DiceBot : (6D6*2+5) ＞ 24[6,5,6,2,1,4]*2+5 ＞ 53", Unspecified, [Die (6)%Z (6)%Z; Die (5)%Z (6)%Z; Die (6)%Z (6)%Z; Die (2)%Z (6)%Z; Die (1)%Z (6)%Z; Die (4)%Z (6)%Z]);
     Some ("DiceBot : (1D6/2) ＞ 1[1]/2 ＞ 0", Unspecified, [Die (1)%Z (6)%Z]);
     Some ("DiceBot : (3D6/2) ＞ 7[1,2,4]/2 ＞ 3", Unspecified, [Die (1)%Z (6)%Z; Die (2)%Z (6)%Z; Die (4)%Z (6)%Z]);
     Some ("DiceBot : (3D6/2+1D6) ＞ 7[1,2,4]/2+5[5] ＞ 8", Unspecified, [Die (1)%Z (6)%Z; Die (2)%Z (6)%Z; Die (4)%Z (6)%Z; Die (5)%Z (6)%Z]);
     Some ("DiceBot : (3D6+1D6/2) ＞ 7[1,2,4]+5[5]/2 ＞ 9", Unspecified, [Die (1)%Z (6)%Z; Die (2)%Z (6)%Z; Die (4)%Z (6)%Z; Die (5)%Z (6)%Z]);
     Some ("DiceBot : (3D6+1D6/2U) ＞ 7[1,2,4]+5[5]/2U ＞ 10", Unspecified, [Die (1)%Z (6)%Z; Die (2)%Z (6)%Z; Die (4)%Z (6)%Z; Die (5)%Z (6)%Z]);
     Some ("DiceBot : (5D6/10) ＞ 29[6,6,6,6,5]/10 ＞ 2", Unspecified, [Die (6)%Z (6)%Z; Die (6)%Z (6)%Z; Die (6)%Z (6)%Z; Die (6)%Z (6)%Z; Die (5)%Z (6)%Z]);
     Some ("DiceBot : (3D6/2U) ＞ 7[1,2,4]/2U ＞ 4", Unspecified, [Die (1)%Z (6)%Z; Die (2)%Z (6)%Z; Die (4)%Z (6)%Z]);
     Some ("DiceBot : (5D6/10U) ＞ 21[6,6,6,2,1]/10U ＞ 3", Unspecified, [Die (6)%Z (6)%Z; Die (6)%Z (6)%Z; Die (6)%Z (6)%Z; Die (2)%Z (6)%Z; Die (1)%Z (6)%Z]);
     Some ("DiceBot : (1D100/10R) ＞ 55[55]/10R ＞ 6", Unspecified, [Die (55)%Z (100)%Z]);
     Some ("DiceBot : (1D100/10R) ＞ 54[54]/10R ＞ 5", Unspecified, [Die (54)%Z (100)%Z]);
     Some ("DiceBot : (4D6) ＞ 15[5,3,4,3] ＞ 15", Unspecified, [Die (4)%Z (5)%Z; Die (5)%Z (6)%Z; Die (3)%Z (6)%Z; Die (4)%Z (6)%Z; Die (3)%Z (6)%Z]);
     Some ("DiceBot : (6D10) ＞ 29[8,7,2,1,6,5] ＞ 29", Unspecified, [Die (3)%Z (3)%Z; Die (8)%Z (10)%Z; Die (7)%Z (10)%Z; Die (2)%Z (10)%Z; Die (1)%Z (10)%Z; Die (6)%Z (10)%Z; Die (5)%Z (10)%Z]);
     Some ("DiceBot : (5D6) ＞ 14[1,2,4,6,1] ＞ 14", Unspecified, [Die (1)%Z (4)%Z; Die (1)%Z (6)%Z; Die (2)%Z (6)%Z; Die (4)%Z (6)%Z; Die (6)%Z (6)%Z; Die (1)%Z (6)%Z]);
     Some ("DiceBot : (5D6) ＞ 14[1,2,4,6,1] ＞ 14", Unspecified, [Die (1)%Z (4)%Z; Die (1)%Z (6)%Z; Die (2)%Z (6)%Z; Die (4)%Z (6)%Z; Die (6)%Z (6)%Z; Die (1)%Z (6)%Z]);
     Some ("DiceBot : (2D2) ＞ 3[1,2] ＞ 3", Unspecified, [Die (2)%Z (5)%Z; Die (1)%Z (2)%Z; Die (2)%Z (2)%Z]);
     Some ("DiceBot : (2D5) ＞ 7[4,3] ＞ 7", Unspecified, [Die (2)%Z (3)%Z; Die (4)%Z (5)%Z; Die (3)%Z (5)%Z]);
     Some ("DiceBot : (2D8) ＞ 10[3,7] ＞ 10", Unspecified, [Die (4)%Z (4)%Z; Die (3)%Z (8)%Z; Die (7)%Z (8)%Z]);
     Some ("DiceBot : (2D8) ＞ 10[3,7] ＞ 10", Unspecified, [Die (4)%Z (4)%Z; Die (3)%Z (8)%Z; Die (7)%Z (8)%Z]);
     Some ("DiceBot : (5D6) ＞ 20[3,5,1,5,6] ＞ 20", Unspecified, [Die (5)%Z (5)%Z; Die (3)%Z (6)%Z; Die (5)%Z (6)%Z; Die (1)%Z (6)%Z; Die (5)%Z (6)%Z; Die (6)%Z (6)%Z]);
     Some ("DiceBot : (2D4) ＞ 7[3,4] ＞ 7", Unspecified, [Die (4)%Z (5)%Z; Die (3)%Z (4)%Z; Die (4)%Z (4)%Z]);
     Some ("DiceBot : (3D6-1) ＞ 14[5,5,4]-1 ＞ 13", Unspecified, [Die (2)%Z (4)%Z; Die (3)%Z (3)%Z; Die (5)%Z (6)%Z; Die (5)%Z (6)%Z; Die (4)%Z (6)%Z])].
Proof. vm_compute. reflexivity. Qed.
(** core/command/execute_d_roll_comp_test.go [TestExecuteDRollComp] *)
Example test_execute_d_roll_comp :
  [executed "2D6=7" [Die (3)%Z (6)%Z; Die (4)%Z (6)%Z];
   executed "2D6=7" [Die (3)%Z (6)%Z; Die (3)%Z (6)%Z];
   executed "2D6=7" [Die (3)%Z (6)%Z; Die (3)%Z (6)%Z];
   executed "2D6+1=3+4" [Die (2)%Z (6)%Z; Die (4)%Z (6)%Z];
   executed "2D6+1=3+4" [Die (3)%Z (6)%Z; Die (4)%Z (6)%Z];
   executed "2D6<>7" [Die (3)%Z (6)%Z; Die (4)%Z (6)%Z];
   executed "2D6<>7" [Die (3)%Z (6)%Z; Die (3)%Z (6)%Z];
   executed "2D6<>7" [Die (3)%Z (6)%Z; Die (5)%Z (6)%Z];
   executed "2D6<7" [Die (3)%Z (6)%Z; Die (3)%Z (6)%Z];
   executed "2D6<7" [Die (3)%Z (6)%Z; Die (4)%Z (6)%Z];
   executed "2D6>7" [Die (3)%Z (6)%Z; Die (5)%Z (6)%Z];
   executed "2D6>7" [Die (3)%Z (6)%Z; Die (4)%Z (6)%Z];
   executed "2D6<=7" [Die (3)%Z (6)%Z; Die (4)%Z (6)%Z];
   executed "2D6<=7" [Die (3)%Z (6)%Z; Die (5)%Z (6)%Z];
   executed "2D6>=7" [Die (3)%Z (6)%Z; Die (4)%Z (6)%Z];
   executed "2D6>=7" [Die (3)%Z (6)%Z; Die (3)%Z (6)%Z];
   executed "-2D6<-7" [Die (3)%Z (6)%Z; Die (5)%Z (6)%Z];
   executed "-2D6<-7" [Die (3)%Z (6)%Z; Die (4)%Z (6)%Z];
   executed "-2D6>-7" [Die (3)%Z (6)%Z; Die (3)%Z (6)%Z];
   executed "-2D6>-7" [Die (3)%Z (6)%Z; Die (4)%Z (6)%Z];
   executed "-2D6<=-7" [Die (3)%Z (6)%Z; Die (4)%Z (6)%Z];
   executed "-2D6<=-7" [Die (3)%Z (6)%Z; Die (3)%Z (6)%Z];
   executed "-2D6>=-7" [Die (3)%Z (6)%Z; Die (4)%Z (6)%Z];
   executed "-2D6>=-7" [Die (3)%Z (6)%Z; Die (5)%Z (6)%Z]]
  = [Some ("DiceBot : (2D6=7) ＞ 7[3,4] ＞ 7 ＞ 成功", Success, [Die (3)%Z (6)%Z; Die (4)%Z (6)%Z]);
     Some ("DiceBot : (2D6=7) ＞ 6[3,3] ＞ 6 ＞ 失敗", Failure, [Die (3)%Z (6)%Z; Die (3)%Z (6)%Z]);
     Some ("DiceBot : (2D6=7) ＞ 6[3,3] ＞ 6 ＞ 失敗", Failure, [Die (3)%Z (6)%Z; Die (3)%Z (6)%Z]);
     Some ("DiceBot : (2D6+1=7) ＞ 6[2,4]+1 ＞ 7 ＞ 成功", Success, [Die (2)%Z (6)%Z; Die (4)%Z (6)%Z]);
     Some ("DiceBot : (2D6+1=7) ＞ 7[3,4]+1 ＞ 8 ＞ 失敗", Failure, [Die (3)%Z (6)%Z; Die (4)%Z (6)%Z]);
     Some ("DiceBot : (2D6<>7) ＞ 7[3,4] ＞ 7 ＞ 失敗", Failure, [Die (3)%Z (6)%Z; Die (4)%Z (6)%Z]);
     Some ("DiceBot : (2D6<>7) ＞ 6[3,3] ＞ 6 ＞ 成功", Success, [Die (3)%Z (6)%Z; Die (3)%Z (6)%Z]);
     Some ("DiceBot : (2D6<>7) ＞ 8[3,5] ＞ 8 ＞ 成功", Success, [Die (3)%Z (6)%Z; Die (5)%Z (6)%Z]);
     Some ("DiceBot : (2D6<7) ＞ 6[3,3] ＞ 6 ＞ 成功", Success, [Die (3)%Z (6)%Z; Die (3)%Z (6)%Z]);
     Some ("DiceBot : (2D6<7) ＞ 7[3,4] ＞ 7 ＞ 失敗", Failure, [Die (3)%Z (6)%Z; Die (4)%Z (6)%Z]);
     Some ("DiceBot : (2D6>7) ＞ 8[3,5] ＞ 8 ＞ 成功", Success, [Die (3)%Z (6)%Z; Die (5)%Z (6)%Z]);
     Some ("DiceBot : (2D6>7) ＞ 7[3,4] ＞ 7 ＞ 失敗", Failure, [Die (3)%Z (6)%Z; Die (4)%Z (6)%Z]);
     Some ("DiceBot : (2D6<=7) ＞ 7[3,4] ＞ 7 ＞ 成功", Success, [Die (3)%Z (6)%Z; Die (4)%Z (6)%Z]);
     Some ("DiceBot : (2D6<=7) ＞ 8[3,5] ＞ 8 ＞ 失敗", Failure, [Die (3)%Z (6)%Z; Die (5)%Z (6)%Z]);
     Some ("DiceBot : (2D6>=7) ＞ 7[3,4] ＞ 7 ＞ 成功", Success, [Die (3)%Z (6)%Z; Die (4)%Z (6)%Z]);
     Some ("DiceBot : (2D6>=7) ＞ 6[3,3] ＞ 6 ＞ 失敗", Failure, [Die (3)%Z (6)%Z; Die (3)%Z (6)%Z]);
     Some ("DiceBot : (-2D6<-7) ＞ -8[3,5] ＞ -8 ＞ 成功", Success, [Die (3)%Z (6)%Z; Die (5)%Z (6)%Z]);
     Some ("DiceBot : (-2D6<-7) ＞ -7[3,4] ＞ -7 ＞ 失敗", Failure, [Die (3)%Z (6)%Z; Die (4)%Z (6)%Z]);
     Some ("DiceBot : (-2D6>-7) ＞ -6[3,3] ＞ -6 ＞ 成功", Success, [Die (3)%Z (6)%Z; Die (3)%Z (6)%Z]);
     Some ("DiceBot : (-2D6>-7) ＞ -7[3,4] ＞ -7 ＞ 失敗", Failure, [Die (3)%Z (6)%Z; Die (4)%Z (6)%Z]);
     Some ("DiceBot : (-2D6<=-7) ＞ -7[3,4] ＞ -7 ＞ 成功", Success, [Die (3)%Z (6)%Z; Die (4)%Z (6)%Z]);
     Some ("DiceBot : (-2D6<=-7) ＞ -6[3,3] ＞ -6 ＞ 失敗", Failure, [Die (3)%Z (6)%Z; Die (3)%Z (6)%Z]);
     Some ("DiceBot : (-2D6>=-7) ＞ -7[3,4] ＞ -7 ＞ 成功", Success, [Die (3)%Z (6)%Z; Die (4)%Z (6)%Z]);
     Some ("DiceBot : (-2D6>=-7) ＞ -8[3,5] ＞ -8 ＞ 失敗", Failure, [Die (3)%Z (6)%Z; Die (5)%Z (6)%Z])].
Proof. vm_compute. reflexivity. Qed.
(** core/command/execute_calc_test.go [TestExecuteCalc] *)
Example test_execute_calc :
  [executed "C(5)" [];
   executed "C(10)" [];
   executed "C(42)" [];
   executed "C(65535)" [];
   executed "C(-5)" [];
   executed "C(-10)" [];
   executed "C(-42)" [];
   executed "C(-65535)" [];
   executed "C(+5)" [];
   executed "C(+10)" [];
   executed "C(+42)" [];
   executed "C(+65535)" [];
   executed "C(1+2)" [];
   executed "C(1-2)" [];
   executed "C(1*2)" [];
   executed "C(1/2)" [];
   executed "C(-1+2)" [];
   executed "C(+1+2)" [];
   executed "C(1+2-3)" [];
   executed "C(1*2+3)" [];
   executed "C(1/2+3)" [];
   executed "C(1+2*3)" [];
   executed "C(1+2/3)" [];
   executed "C(1+(2-3))" [];
   executed "C((1+2)*3)" [];
   executed "C((1+2)/3)" [];
   executed "C(-(1+2))" [];
   executed "C(+(1+2))" [];
   executed "C(1+50/3-2)" [];
   executed "C(1+50/3u-2)" [];
   executed "C(1+50/3r-2)" [];
   executed "C(1+100/3-2)" [];
   executed "C(1+100/3u-2)" [];
   executed "C(1+100/3r-2)" []]
  = [Some ("DiceBot : C(5) ＞ 計算結果 ＞ 5", Unspecified, []);
     Some ("DiceBot : C(10) ＞ 計算結果 ＞ 10", Unspecified, []);
     Some ("DiceBot : C(42) ＞ 計算結果 ＞ 42", Unspecified, []);
     Some ("DiceBot : C(65535) ＞ 計算結果 ＞ 65535", Unspecified, []);
     Some ("DiceBot : C(-5) ＞ 計算結果 ＞ -5", Unspecified, []);
     Some ("DiceBot : C(-10) ＞ 計算結果 ＞ -10", Unspecified, []);
     Some ("DiceBot : C(-42) ＞ 計算結果 ＞ -42", Unspecified, []);
     Some ("DiceBot : C(-65535) ＞ 計算結果 ＞ -65535", Unspecified, []);
     Some ("DiceBot : C(5) ＞ 計算結果 ＞ 5", Unspecified, []);
     Some ("DiceBot : C(10) ＞ 計算結果 ＞ 10", Unspecified, []);
     Some ("DiceBot : C(42) ＞ 計算結果 ＞ 42", Unspecified, []);
     Some ("DiceBot : C(65535) ＞ 計算結果 ＞ 65535", Unspecified, []);
     Some ("DiceBot : C(1+2) ＞ 計算結果 ＞ 3", Unspecified, []);
     Some ("DiceBot : C(1-2) ＞ 計算結果 ＞ -1", Unspecified, []);
     Some ("DiceBot : C(1*2) ＞ 計算結果 ＞ 2", Unspecified, []);
     Some ("DiceBot : C(1/2) ＞ 計算結果 ＞ 0", Unspecified, []);
     Some ("DiceBot : C(-1+2) ＞ 計算結果 ＞ 1", Unspecified, []);
     Some ("DiceBot : C(1+2) ＞ 計算結果 ＞ 3", Unspecified, []);
     Some ("DiceBot : C(1+2-3) ＞ 計算結果 ＞ 0", Unspecified, []);
     Some ("DiceBot : C(1*2+3) ＞ 計算結果 ＞ 5", Unspecified, []);
     Some ("DiceBot : C(1/2+3) ＞ 計算結果 ＞ 3", Unspecified, []);
     Some ("DiceBot : C(1+2*3) ＞ 計算結果 ＞ 7", Unspecified, []);
     Some ("DiceBot : C(1+2/3) ＞ 計算結果 ＞ 1", Unspecified, []);
     Some ("DiceBot : C(1+2-3) ＞ 計算結果 ＞ 0", Unspecified, []);
     Some ("DiceBot : C((1+2)*3) ＞ 計算結果 ＞ 9", Unspecified, []);
     Some ("DiceBot : C((1+2)/3) ＞ 計算結果 ＞ 1", Unspecified, []);
     Some ("DiceBot : C(-(1+2)) ＞ 計算結果 ＞ -3", Unspecified, []);
     Some ("DiceBot : C(1+2) ＞ 計算結果 ＞ 3", Unspecified, []);
     Some ("DiceBot : C(1+50/3-2) ＞ 計算結果 ＞ 15", Unspecified, []);
     Some ("DiceBot : C(1+50/3U-2) ＞ 計算結果 ＞ 16", Unspecified, []);
     Some ("DiceBot : C(1+50/3R-2) ＞ 計算結果 ＞ 16", Unspecified, []);
     Some ("DiceBot : C(1+100/3-2) ＞ 計算結果 ＞ 32", Unspecified, []);
     Some ("DiceBot : C(1+100/3U-2) ＞ 計算結果 ＞ 33", Unspecified, []);
     Some ("DiceBot : C(1+100/3R-2) ＞ 計算結果 ＞ 32", Unspecified, [])].
Proof. vm_compute. reflexivity. Qed.
(** core/command/execute_b_roll_list_test.go [TestExecuteBRollList] *)
Example test_execute_b_roll_list :
  [executed "2b6" [Die (3)%Z (6)%Z; Die (4)%Z (6)%Z];
   executed "2b6" [Die (6)%Z (6)%Z; Die (1)%Z (6)%Z];
   executed "[1...3]b6" [Die (1)%Z (3)%Z; Die (5)%Z (6)%Z];
   executed "[1...3]b6" [Die (3)%Z (3)%Z; Die (2)%Z (6)%Z; Die (4)%Z (6)%Z; Die (6)%Z (6)%Z];
   executed "2b[4...6]" [Die (1)%Z (3)%Z; Die (3)%Z (4)%Z; Die (4)%Z (4)%Z];
   executed "2b[4...6]" [Die (2)%Z (3)%Z; Die (5)%Z (5)%Z; Die (1)%Z (5)%Z];
   executed "[1...3]b[4...6]" [Die (3)%Z (3)%Z; Die (3)%Z (3)%Z; Die (6)%Z (6)%Z; Die (4)%Z (6)%Z; Die (3)%Z (6)%Z];
   executed "(1*2)b6" [Die (3)%Z (6)%Z; Die (4)%Z (6)%Z];
   executed "([1...3]+1)b6" [Die (2)%Z (3)%Z; Die (2)%Z (6)%Z; Die (4)%Z (6)%Z; Die (3)%Z (6)%Z];
   executed "2b(2+4)" [Die (3)%Z (6)%Z; Die (4)%Z (6)%Z];
   executed "2b([3...5]+1)" [Die (2)%Z (3)%Z; Die (1)%Z (5)%Z; Die (3)%Z (5)%Z];
   executed "[1...5]b(2*3)" [Die (5)%Z (5)%Z; Die (3)%Z (6)%Z; Die (5)%Z (6)%Z; Die (1)%Z (6)%Z; Die (5)%Z (6)%Z; Die (6)%Z (6)%Z];
   executed "(1+1)b[1...5]" [Die (4)%Z (5)%Z; Die (3)%Z (4)%Z; Die (4)%Z (4)%Z];
   executed "(1*2)b(2+4)" [Die (4)%Z (6)%Z; Die (3)%Z (6)%Z];
   executed "2b6+4b10" [Die (1)%Z (6)%Z; Die (3)%Z (6)%Z; Die (1)%Z (10)%Z; Die (10)%Z (10)%Z; Die (3)%Z (10)%Z; Die (1)%Z (10)%Z];
   executed "2b6+4b10" [Die (3)%Z (6)%Z; Die (2)%Z (6)%Z; Die (5)%Z (10)%Z; Die (7)%Z (10)%Z; Die (1)%Z (10)%Z; Die (3)%Z (10)%Z];
   executed "2b6+3b8+5b12" [Die (3)%Z (6)%Z; Die (4)%Z (6)%Z; Die (7)%Z (8)%Z; Die (1)%Z (8)%Z; Die (5)%Z (8)%Z; Die (11)%Z (12)%Z; Die (3)%Z (12)%Z; Die (4)%Z (12)%Z; Die (10)%Z (12)%Z; Die (9)%Z (12)%Z]]
  = [Some ("DiceBot : (2B6) ＞ 3,4", Unspecified, [Die (3)%Z (6)%Z; Die (4)%Z (6)%Z]);
     Some ("DiceBot : (2B6) ＞ 6,1", Unspecified, [Die (6)%Z (6)%Z; Die (1)%Z (6)%Z]);
     Some ("DiceBot : (1B6) ＞ 5", Unspecified, [Die (1)%Z (3)%Z; Die (5)%Z (6)%Z]);
     Some ("DiceBot : (3B6) ＞ 2,4,6", Unspecified, [Die (3)%Z (3)%Z; Die (2)%Z (6)%Z; Die (4)%Z (6)%Z; Die (6)%Z (6)%Z]);
     Some ("DiceBot : (2B4) ＞ 3,4", Unspecified, [Die (1)%Z (3)%Z; Die (3)%Z (4)%Z; Die (4)%Z (4)%Z]);
     Some ("DiceBot : (2B5) ＞ 5,1", Unspecified, [Die (2)%Z (3)%Z; Die (5)%Z (5)%Z; Die (1)%Z (5)%Z]);
     Some ("DiceBot : (3B6) ＞ 6,4,3", Unspecified, [Die (3)%Z (3)%Z; Die (3)%Z (3)%Z; Die (6)%Z (6)%Z; Die (4)%Z (6)%Z; Die (3)%Z (6)%Z]);
     Some ("DiceBot : (2B6) ＞ 3,4", Unspecified, [Die (3)%Z (6)%Z; Die (4)%Z (6)%Z]);
     Some ("DiceBot : (3B6) ＞ 2,4,3", Unspecified, [Die (2)%Z (3)%Z; Die (2)%Z (6)%Z; Die (4)%Z (6)%Z; Die (3)%Z (6)%Z]);
     Some ("DiceBot : (2B6) ＞ 3,4", Unspecified, [Die (3)%Z (6)%Z; Die (4)%Z (6)%Z]);
     Some ("DiceBot : (2B5) ＞ 1,3", Unspecified, [Die (2)%Z (3)%Z; Die (1)%Z (5)%Z; Die (3)%Z (5)%Z]);
     Some ("DiceBot : (5B6) ＞ 3,5,1,5,6", Unspecified, [Die (5)%Z (5)%Z; Die (3)%Z (6)%Z; Die (5)%Z (6)%Z; Die (1)%Z (6)%Z; Die (5)%Z (6)%Z; Die (6)%Z (6)%Z]);
     Some ("DiceBot : (2B4) ＞ 3,4", Unspecified, [Die (4)%Z (5)%Z; Die (3)%Z (4)%Z; Die (4)%Z (4)%Z]);
     Some ("DiceBot : (2B6) ＞ 4,3", Unspecified, [Die (4)%Z (6)%Z; Die (3)%Z (6)%Z]);
     Some ("DiceBot : (2B6+4B10) ＞ 1,3,1,10,3,1", Unspecified, [Die (1)%Z (6)%Z; Die (3)%Z (6)%Z; Die (1)%Z (10)%Z; Die (10)%Z (10)%Z; Die (3)%Z (10)%Z; Die (1)%Z (10)%Z]);
     Some ("DiceBot : (2B6+4B10) ＞ 3,2,5,7,1,3", Unspecified, [Die (3)%Z (6)%Z; Die (2)%Z (6)%Z; Die (5)%Z (10)%Z; Die (7)%Z (10)%Z; Die (1)%Z (10)%Z; Die (3)%Z (10)%Z]);
     Some ("DiceBot : (2B6+3B8+5B12) ＞ 3,4,7,1,5,11,3,4,10,9", Unspecified, [Die (3)%Z (6)%Z; Die (4)%Z (6)%Z; Die (7)%Z (8)%Z; Die (1)%Z (8)%Z; Die (5)%Z (8)%Z; Die (11)%Z (12)%Z; Die (3)%Z (12)%Z; Die (4)%Z (12)%Z; Die (10)%Z (12)%Z; Die (9)%Z (12)%Z])].
Proof. vm_compute. reflexivity. Qed.
(** core/command/execute_b_roll_comp_test.go [TestExecuteBRollComp] *)
Example test_execute_b_roll_comp :
  [executed "2b6=3" [Die (3)%Z (6)%Z; Die (4)%Z (6)%Z];
   executed "2b6=3" [Die (2)%Z (6)%Z; Die (1)%Z (6)%Z];
   executed "2b6<>3" [Die (3)%Z (6)%Z; Die (4)%Z (6)%Z];
   executed "2b6<>3" [Die (2)%Z (6)%Z; Die (1)%Z (6)%Z];
   executed "2b6>3" [Die (3)%Z (6)%Z; Die (4)%Z (6)%Z];
   executed "2b6>3" [Die (2)%Z (6)%Z; Die (1)%Z (6)%Z];
   executed "2b6<3" [Die (3)%Z (6)%Z; Die (4)%Z (6)%Z];
   executed "2b6<3" [Die (2)%Z (6)%Z; Die (1)%Z (6)%Z];
   executed "2b6>=3" [Die (3)%Z (6)%Z; Die (4)%Z (6)%Z];
   executed "2b6>=3" [Die (2)%Z (6)%Z; Die (1)%Z (6)%Z];
   executed "2b6<=3" [Die (3)%Z (6)%Z; Die (4)%Z (6)%Z];
   executed "2b6<=3" [Die (2)%Z (6)%Z; Die (1)%Z (6)%Z];
   executed "2b6+4b10>3" [Die (3)%Z (6)%Z; Die (4)%Z (6)%Z; Die (9)%Z (10)%Z; Die (7)%Z (10)%Z; Die (1)%Z (10)%Z; Die (5)%Z (10)%Z];
   executed "2b6+4b10>3" [Die (3)%Z (6)%Z; Die (2)%Z (6)%Z; Die (5)%Z (10)%Z; Die (7)%Z (10)%Z; Die (1)%Z (10)%Z; Die (3)%Z (10)%Z];
   executed "2b6+3b8+5b12<5" [Die (5)%Z (6)%Z; Die (2)%Z (6)%Z; Die (7)%Z (8)%Z; Die (3)%Z (8)%Z; Die (4)%Z (8)%Z; Die (11)%Z (12)%Z; Die (9)%Z (12)%Z; Die (8)%Z (12)%Z; Die (12)%Z (12)%Z; Die (6)%Z (12)%Z];
   executed "2b6+3b8+5b12<5" [Die (3)%Z (6)%Z; Die (4)%Z (6)%Z; Die (7)%Z (8)%Z; Die (1)%Z (8)%Z; Die (5)%Z (8)%Z; Die (11)%Z (12)%Z; Die (3)%Z (12)%Z; Die (4)%Z (12)%Z; Die (10)%Z (12)%Z; Die (9)%Z (12)%Z];
   executed "[1...3]b6>3" [Die (1)%Z (3)%Z; Die (5)%Z (6)%Z];
   executed "[1...3]b6>3" [Die (3)%Z (3)%Z; Die (2)%Z (6)%Z; Die (4)%Z (6)%Z; Die (6)%Z (6)%Z];
   executed "2b[4...6]>3" [Die (1)%Z (3)%Z; Die (3)%Z (4)%Z; Die (4)%Z (4)%Z];
   executed "2b[4...6]>3" [Die (2)%Z (3)%Z; Die (5)%Z (5)%Z; Die (1)%Z (5)%Z];
   executed "[1...3]b[4...6]>3" [Die (3)%Z (3)%Z; Die (3)%Z (3)%Z; Die (6)%Z (6)%Z; Die (4)%Z (6)%Z; Die (3)%Z (6)%Z];
   executed "(1*2)b6>3" [Die (3)%Z (6)%Z; Die (4)%Z (6)%Z];
   executed "([1...3]+1)b6>3" [Die (2)%Z (3)%Z; Die (2)%Z (6)%Z; Die (4)%Z (6)%Z; Die (3)%Z (6)%Z];
   executed "2b(2+4)>3" [Die (3)%Z (6)%Z; Die (4)%Z (6)%Z];
   executed "2b([3...5]+1)>3" [Die (2)%Z (3)%Z; Die (1)%Z (5)%Z; Die (3)%Z (5)%Z];
   executed "(1*2)b(2+4)>3" [Die (4)%Z (6)%Z; Die (3)%Z (6)%Z];
   executed "2b6>=1+3" [Die (4)%Z (6)%Z; Die (3)%Z (6)%Z]]
  = [Some ("DiceBot : (2B6=3) ＞ 3,4 ＞ 成功数1", Unspecified, [Die (3)%Z (6)%Z; Die (4)%Z (6)%Z]);
     Some ("DiceBot : (2B6=3) ＞ 2,1 ＞ 成功数0", Unspecified, [Die (2)%Z (6)%Z; Die (1)%Z (6)%Z]);
     Some ("DiceBot : (2B6<>3) ＞ 3,4 ＞ 成功数1", Unspecified, [Die (3)%Z (6)%Z; Die (4)%Z (6)%Z]);
     Some ("DiceBot : (2B6<>3) ＞ 2,1 ＞ 成功数2", Unspecified, [Die (2)%Z (6)%Z; Die (1)%Z (6)%Z]);
     Some ("DiceBot : (2B6>3) ＞ 3,4 ＞ 成功数1", Unspecified, [Die (3)%Z (6)%Z; Die (4)%Z (6)%Z]);
     Some ("DiceBot : (2B6>3) ＞ 2,1 ＞ 成功数0", Unspecified, [Die (2)%Z (6)%Z; Die (1)%Z (6)%Z]);
     Some ("DiceBot : (2B6<3) ＞ 3,4 ＞ 成功数0", Unspecified, [Die (3)%Z (6)%Z; Die (4)%Z (6)%Z]);
     Some ("DiceBot : (2B6<3) ＞ 2,1 ＞ 成功数2", Unspecified, [Die (2)%Z (6)%Z; Die (1)%Z (6)%Z]);
     Some ("DiceBot : (2B6>=3) ＞ 3,4 ＞ 成功数2", Unspecified, [Die (3)%Z (6)%Z; Die (4)%Z (6)%Z]);
     Some ("DiceBot : (2B6>=3) ＞ 2,1 ＞ 成功数0", Unspecified, [Die (2)%Z (6)%Z; Die (1)%Z (6)%Z]);
     Some ("DiceBot : (2B6<=3) ＞ 3,4 ＞ 成功数1", Unspecified, [Die (3)%Z (6)%Z; Die (4)%Z (6)%Z]);
     Some ("DiceBot : (2B6<=3) ＞ 2,1 ＞ 成功数2", Unspecified, [Die (2)%Z (6)%Z; Die (1)%Z (6)%Z]);
     Some ("DiceBot : (2B6+4B10>3) ＞ 3,4,9,7,1,5 ＞ 成功数4", Unspecified, [Die (3)%Z (6)%Z; Die (4)%Z (6)%Z; Die (9)%Z (10)%Z; Die (7)%Z (10)%Z; Die (1)%Z (10)%Z; Die (5)%Z (10)%Z]);
     Some ("DiceBot : (2B6+4B10>3) ＞ 3,2,5,7,1,3 ＞ 成功数2", Unspecified, [Die (3)%Z (6)%Z; Die (2)%Z (6)%Z; Die (5)%Z (10)%Z; Die (7)%Z (10)%Z; Die (1)%Z (10)%Z; Die (3)%Z (10)%Z]);
     Some ("DiceBot : (2B6+3B8+5B12<5) ＞ 5,2,7,3,4,11,9,8,12,6 ＞ 成功数3", Unspecified, [Die (5)%Z (6)%Z; Die (2)%Z (6)%Z; Die (7)%Z (8)%Z; Die (3)%Z (8)%Z; Die (4)%Z (8)%Z; Die (11)%Z (12)%Z; Die (9)%Z (12)%Z; Die (8)%Z (12)%Z; Die (12)%Z (12)%Z; Die (6)%Z (12)%Z]);
     Some ("DiceBot : (2B6+3B8+5B12<5) ＞ 3,4,7,1,5,11,3,4,10,9 ＞ 成功数5", Unspecified, [Die (3)%Z (6)%Z; Die (4)%Z (6)%Z; Die (7)%Z (8)%Z; Die (1)%Z (8)%Z; Die (5)%Z (8)%Z; Die (11)%Z (12)%Z; Die (3)%Z (12)%Z; Die (4)%Z (12)%Z; Die (10)%Z (12)%Z; Die (9)%Z (12)%Z]);
     Some ("DiceBot : (1B6>3) ＞ 5 ＞ 成功数1", Unspecified, [Die (1)%Z (3)%Z; Die (5)%Z (6)%Z]);
     Some ("DiceBot : (3B6>3) ＞ 2,4,6 ＞ 成功数2", Unspecified, [Die (3)%Z (3)%Z; Die (2)%Z (6)%Z; Die (4)%Z (6)%Z; Die (6)%Z (6)%Z]);
     Some ("DiceBot : (2B4>3) ＞ 3,4 ＞ 成功数1", Unspecified, [Die (1)%Z (3)%Z; Die (3)%Z (4)%Z; Die (4)%Z (4)%Z]);
     Some ("DiceBot : (2B5>3) ＞ 5,1 ＞ 成功数1", Unspecified, [Die (2)%Z (3)%Z; Die (5)%Z (5)%Z; Die (1)%Z (5)%Z]);
     Some ("DiceBot : (3B6>3) ＞ 6,4,3 ＞ 成功数2", Unspecified, [Die (3)%Z (3)%Z; Die (3)%Z (3)%Z; Die (6)%Z (6)%Z; Die (4)%Z (6)%Z; Die (3)%Z (6)%Z]);
     Some ("DiceBot : (2B6>3) ＞ 3,4 ＞ 成功数1", Unspecified, [Die (3)%Z (6)%Z; Die (4)%Z (6)%Z]);
     Some ("DiceBot : (3B6>3) ＞ 2,4,3 ＞ 成功数1", Unspecified, [Die (2)%Z (3)%Z; Die (2)%Z (6)%Z; Die (4)%Z (6)%Z; Die (3)%Z (6)%Z]);
     Some ("DiceBot : (2B6>3) ＞ 3,4 ＞ 成功数1", Unspecified, [Die (3)%Z (6)%Z; Die (4)%Z (6)%Z]);
     Some ("DiceBot : (2B5>3) ＞ 1,3 ＞ 成功数0", Unspecified, [Die (2)%Z (3)%Z; Die (1)%Z (5)%Z; Die (3)%Z (5)%Z]);
     Some ("DiceBot : (2B6>3) ＞ 4,3 ＞ 成功数1", Unspecified, [Die (4)%Z (6)%Z; Die (3)%Z (6)%Z]);
     Some ("DiceBot : (2B6>=4) ＞ 4,3 ＞ 成功数1", Unspecified, [Die (4)%Z (6)%Z; Die (3)%Z (6)%Z])].
Proof. vm_compute. reflexivity. Qed.
(** core/command/execute_r_roll_list_test.go [TestExecuteRRollList] *)
Example test_execute_r_roll_list :
  [executed "2R6" [];
   executed "2r6[1]" [];
   executed "2R6[3]" [Die (3)%Z (6)%Z; Die (1)%Z (6)%Z; Die (2)%Z (6)%Z];
   executed "2R6[3]" [Die (6)%Z (6)%Z; Die (1)%Z (6)%Z; Die (3)%Z (6)%Z; Die (1)%Z (6)%Z];
   executed "12R6[6]" [Die (4)%Z (6)%Z; Die (1)%Z (6)%Z; Die (5)%Z (6)%Z; Die (4)%Z (6)%Z; Die (3)%Z (6)%Z; Die (2)%Z (6)%Z; Die (5)%Z (6)%Z; Die (1)%Z (6)%Z; Die (6)%Z (6)%Z; Die (3)%Z (6)%Z; Die (2)%Z (6)%Z; Die (5)%Z (6)%Z; Die (5)%Z (6)%Z];
   executed "12R6[6]" [Die (2)%Z (6)%Z; Die (4)%Z (6)%Z; Die (4)%Z (6)%Z; Die (5)%Z (6)%Z; Die (4)%Z (6)%Z; Die (1)%Z (6)%Z; Die (2)%Z (6)%Z; Die (6)%Z (6)%Z; Die (6)%Z (6)%Z; Die (6)%Z (6)%Z; Die (1)%Z (6)%Z; Die (4)%Z (6)%Z; Die (6)%Z (6)%Z; Die (4)%Z (6)%Z; Die (6)%Z (6)%Z; Die (3)%Z (6)%Z; Die (4)%Z (6)%Z];
   executed "12R6[6]" [Die (2)%Z (6)%Z; Die (5)%Z (6)%Z; Die (4)%Z (6)%Z; Die (5)%Z (6)%Z; Die (3)%Z (6)%Z; Die (1)%Z (6)%Z; Die (3)%Z (6)%Z; Die (4)%Z (6)%Z; Die (2)%Z (6)%Z; Die (2)%Z (6)%Z; Die (4)%Z (6)%Z; Die (5)%Z (6)%Z];
   executed "2R4+2R6[4]" [Die (4)%Z (4)%Z; Die (3)%Z (4)%Z; Die (3)%Z (6)%Z; Die (5)%Z (6)%Z; Die (1)%Z (4)%Z; Die (2)%Z (6)%Z]]
  = [Some ("DiceBot : (2R6) ＞ 2R6>=5 あるいは 2R6[5] のように振り足し目標値を指定してください", Unspecified, []);
     Some ("DiceBot : (2R6[1]) ＞ 振り足し目標値として2以上の整数を指定してください", Unspecified, []);
     Some ("DiceBot : (2R6[3]) ＞ 3,1 + 2", Unspecified, [Die (3)%Z (6)%Z; Die (1)%Z (6)%Z; Die (2)%Z (6)%Z]);
     Some ("DiceBot : (2R6[3]) ＞ 6,1 + 3 + 1", Unspecified, [Die (6)%Z (6)%Z; Die (1)%Z (6)%Z; Die (3)%Z (6)%Z; Die (1)%Z (6)%Z]);
     Some ("DiceBot : (12R6[6]) ＞ 4,1,5,4,3,2,5,1,6,3,2,5 + 5", Unspecified, [Die (4)%Z (6)%Z; Die (1)%Z (6)%Z; Die (5)%Z (6)%Z; Die (4)%Z (6)%Z; Die (3)%Z (6)%Z; Die (2)%Z (6)%Z; Die (5)%Z (6)%Z; Die (1)%Z (6)%Z; Die (6)%Z (6)%Z; Die (3)%Z (6)%Z; Die (2)%Z (6)%Z; Die (5)%Z (6)%Z; Die (5)%Z (6)%Z]);
     Some ("DiceBot : (12R6[6]) ＞ 2,4,4,5,4,1,2,6,6,6,1,4 + 6,4,6 + 3,4", Unspecified, [Die (2)%Z (6)%Z; Die (4)%Z (6)%Z; Die (4)%Z (6)%Z; Die (5)%Z (6)%Z; Die (4)%Z (6)%Z; Die (1)%Z (6)%Z; Die (2)%Z (6)%Z; Die (6)%Z (6)%Z; Die (6)%Z (6)%Z; Die (6)%Z (6)%Z; Die (1)%Z (6)%Z; Die (4)%Z (6)%Z; Die (6)%Z (6)%Z; Die (4)%Z (6)%Z; Die (6)%Z (6)%Z; Die (3)%Z (6)%Z; Die (4)%Z (6)%Z]);
     Some ("DiceBot : (12R6[6]) ＞ 2,5,4,5,3,1,3,4,2,2,4,5", Unspecified, [Die (2)%Z (6)%Z; Die (5)%Z (6)%Z; Die (4)%Z (6)%Z; Die (5)%Z (6)%Z; Die (3)%Z (6)%Z; Die (1)%Z (6)%Z; Die (3)%Z (6)%Z; Die (4)%Z (6)%Z; Die (2)%Z (6)%Z; Die (2)%Z (6)%Z; Die (4)%Z (6)%Z; Die (5)%Z (6)%Z]);
     Some ("DiceBot : (2R4+2R6[4]) ＞ 4,3 + 3,5 + 1 + 2", Unspecified, [Die (4)%Z (4)%Z; Die (3)%Z (4)%Z; Die (3)%Z (6)%Z; Die (5)%Z (6)%Z; Die (1)%Z (4)%Z; Die (2)%Z (6)%Z])].
Proof. vm_compute. reflexivity. Qed.
(** core/command/execute_r_roll_comp_test.go [TestExecuteRRollComp] *)
Example test_execute_r_roll_comp :
  [executed "2r6>=1" [];
   executed "2r6=3" [Die (3)%Z (6)%Z; Die (1)%Z (6)%Z; Die (2)%Z (6)%Z];
   executed "2r6=3" [Die (6)%Z (6)%Z; Die (1)%Z (6)%Z; Die (3)%Z (6)%Z; Die (1)%Z (6)%Z];
   executed "2R6<>3" [Die (3)%Z (6)%Z; Die (1)%Z (6)%Z; Die (2)%Z (6)%Z];
   executed "2R6<>3" [Die (6)%Z (6)%Z; Die (1)%Z (6)%Z; Die (3)%Z (6)%Z; Die (1)%Z (6)%Z];
   executed "2R6>3" [Die (3)%Z (6)%Z; Die (1)%Z (6)%Z; Die (2)%Z (6)%Z];
   executed "2R6>3" [Die (6)%Z (6)%Z; Die (1)%Z (6)%Z; Die (3)%Z (6)%Z; Die (1)%Z (6)%Z];
   executed "2R6<3" [Die (3)%Z (6)%Z; Die (1)%Z (6)%Z; Die (2)%Z (6)%Z];
   executed "2R6<3" [Die (6)%Z (6)%Z; Die (1)%Z (6)%Z; Die (3)%Z (6)%Z; Die (1)%Z (6)%Z];
   executed "2R6>=3" [Die (3)%Z (6)%Z; Die (1)%Z (6)%Z; Die (2)%Z (6)%Z];
   executed "2R6>=3" [Die (6)%Z (6)%Z; Die (1)%Z (6)%Z; Die (3)%Z (6)%Z; Die (1)%Z (6)%Z];
   executed "2R6<=3" [Die (3)%Z (6)%Z; Die (1)%Z (6)%Z; Die (2)%Z (6)%Z];
   executed "2R6<=3" [Die (6)%Z (6)%Z; Die (1)%Z (6)%Z; Die (3)%Z (6)%Z; Die (1)%Z (6)%Z];
   executed "2R6[3]>=4" [Die (6)%Z (6)%Z; Die (1)%Z (6)%Z; Die (3)%Z (6)%Z; Die (1)%Z (6)%Z];
   executed "2R4+2R6>=4" [Die (4)%Z (4)%Z; Die (3)%Z (4)%Z; Die (3)%Z (6)%Z; Die (5)%Z (6)%Z; Die (1)%Z (4)%Z; Die (2)%Z (6)%Z]]
  = [Some ("DiceBot : (2R6[1]>=1) ＞ 振り足し目標値として2以上の整数を指定してください", Unspecified, []);
     Some ("DiceBot : (2R6[3]=3) ＞ 3,1 + 2 ＞ 成功数1", Unspecified, [Die (3)%Z (6)%Z; Die (1)%Z (6)%Z; Die (2)%Z (6)%Z]);
     Some ("DiceBot : (2R6[3]=3) ＞ 6,1 + 3 + 1 ＞ 成功数1", Unspecified, [Die (6)%Z (6)%Z; Die (1)%Z (6)%Z; Die (3)%Z (6)%Z; Die (1)%Z (6)%Z]);
     Some ("DiceBot : (2R6[3]<>3) ＞ 3,1 + 2 ＞ 成功数2", Unspecified, [Die (3)%Z (6)%Z; Die (1)%Z (6)%Z; Die (2)%Z (6)%Z]);
     Some ("DiceBot : (2R6[3]<>3) ＞ 6,1 + 3 + 1 ＞ 成功数3", Unspecified, [Die (6)%Z (6)%Z; Die (1)%Z (6)%Z; Die (3)%Z (6)%Z; Die (1)%Z (6)%Z]);
     Some ("DiceBot : (2R6[3]>3) ＞ 3,1 + 2 ＞ 成功数0", Unspecified, [Die (3)%Z (6)%Z; Die (1)%Z (6)%Z; Die (2)%Z (6)%Z]);
     Some ("DiceBot : (2R6[3]>3) ＞ 6,1 + 3 + 1 ＞ 成功数1", Unspecified, [Die (6)%Z (6)%Z; Die (1)%Z (6)%Z; Die (3)%Z (6)%Z; Die (1)%Z (6)%Z]);
     Some ("DiceBot : (2R6[3]<3) ＞ 3,1 + 2 ＞ 成功数2", Unspecified, [Die (3)%Z (6)%Z; Die (1)%Z (6)%Z; Die (2)%Z (6)%Z]);
     Some ("DiceBot : (2R6[3]<3) ＞ 6,1 + 3 + 1 ＞ 成功数2", Unspecified, [Die (6)%Z (6)%Z; Die (1)%Z (6)%Z; Die (3)%Z (6)%Z; Die (1)%Z (6)%Z]);
     Some ("DiceBot : (2R6[3]>=3) ＞ 3,1 + 2 ＞ 成功数1", Unspecified, [Die (3)%Z (6)%Z; Die (1)%Z (6)%Z; Die (2)%Z (6)%Z]);
     Some ("DiceBot : (2R6[3]>=3) ＞ 6,1 + 3 + 1 ＞ 成功数2", Unspecified, [Die (6)%Z (6)%Z; Die (1)%Z (6)%Z; Die (3)%Z (6)%Z; Die (1)%Z (6)%Z]);
     Some ("DiceBot : (2R6[3]<=3) ＞ 3,1 + 2 ＞ 成功数3", Unspecified, [Die (3)%Z (6)%Z; Die (1)%Z (6)%Z; Die (2)%Z (6)%Z]);
     Some ("DiceBot : (2R6[3]<=3) ＞ 6,1 + 3 + 1 ＞ 成功数3", Unspecified, [Die (6)%Z (6)%Z; Die (1)%Z (6)%Z; Die (3)%Z (6)%Z; Die (1)%Z (6)%Z]);
     Some ("DiceBot : (2R6[3]>=4) ＞ 6,1 + 3 + 1 ＞ 成功数1", Unspecified, [Die (6)%Z (6)%Z; Die (1)%Z (6)%Z; Die (3)%Z (6)%Z; Die (1)%Z (6)%Z]);
     Some ("DiceBot : (2R4+2R6[4]>=4) ＞ 4,3 + 3,5 + 1 + 2 ＞ 成功数2", Unspecified, [Die (4)%Z (4)%Z; Die (3)%Z (4)%Z; Die (3)%Z (6)%Z; Die (5)%Z (6)%Z; Die (1)%Z (4)%Z; Die (2)%Z (6)%Z])].
Proof. vm_compute. reflexivity. Qed.
(** core/command/execute_u_roll_expr_test.go [TestExecuteURollExpr] *)
Example test_execute_u_roll_expr :
  [executed "3u6" [];
   executed "3u6[1]" [];
   executed "3u6[6]" [Die (6)%Z (6)%Z; Die (5)%Z (6)%Z; Die (6)%Z (6)%Z; Die (1)%Z (6)%Z; Die (6)%Z (6)%Z; Die (1)%Z (6)%Z];
   executed "(1+2)u6[6]" [Die (6)%Z (6)%Z; Die (5)%Z (6)%Z; Die (6)%Z (6)%Z; Die (1)%Z (6)%Z; Die (6)%Z (6)%Z; Die (1)%Z (6)%Z];
   executed "3u(2*3)[6]" [Die (6)%Z (6)%Z; Die (5)%Z (6)%Z; Die (6)%Z (6)%Z; Die (1)%Z (6)%Z; Die (6)%Z (6)%Z; Die (1)%Z (6)%Z];
   executed "3u6[12/2]" [Die (6)%Z (6)%Z; Die (5)%Z (6)%Z; Die (6)%Z (6)%Z; Die (1)%Z (6)%Z; Die (6)%Z (6)%Z; Die (1)%Z (6)%Z];
   executed "6U6[4]" [Die (2)%Z (6)%Z; Die (5)%Z (6)%Z; Die (2)%Z (6)%Z; Die (1)%Z (6)%Z; Die (4)%Z (6)%Z; Die (6)%Z (6)%Z; Die (1)%Z (6)%Z; Die (5)%Z (6)%Z; Die (3)%Z (6)%Z; Die (3)%Z (6)%Z];
   executed "6U6[4]" [Die (4)%Z (6)%Z; Die (3)%Z (6)%Z; Die (1)%Z (6)%Z; Die (1)%Z (6)%Z; Die (4)%Z (6)%Z; Die (6)%Z (6)%Z; Die (6)%Z (6)%Z; Die (4)%Z (6)%Z; Die (3)%Z (6)%Z; Die (1)%Z (6)%Z; Die (6)%Z (6)%Z; Die (5)%Z (6)%Z; Die (3)%Z (6)%Z];
   executed "1U100[96]+3" [Die (98)%Z (100)%Z; Die (57)%Z (100)%Z];
   executed "3u6[5]+10" [Die (1)%Z (6)%Z; Die (3)%Z (6)%Z; Die (5)%Z (6)%Z; Die (1)%Z (6)%Z];
   executed "3u6[5]-(-2-2*4)" [Die (1)%Z (6)%Z; Die (3)%Z (6)%Z; Die (5)%Z (6)%Z; Die (1)%Z (6)%Z];
   executed "3u6[5]-10" [Die (1)%Z (6)%Z; Die (3)%Z (6)%Z; Die (5)%Z (6)%Z; Die (1)%Z (6)%Z];
   executed "3u6[5]+(-2-2*4)" [Die (1)%Z (6)%Z; Die (3)%Z (6)%Z; Die (5)%Z (6)%Z; Die (1)%Z (6)%Z];
   executed "3u6+5u6[6]" [Die (3)%Z (6)%Z; Die (5)%Z (6)%Z; Die (3)%Z (6)%Z; Die (6)%Z (6)%Z; Die (4)%Z (6)%Z; Die (1)%Z (6)%Z; Die (6)%Z (6)%Z; Die (6)%Z (6)%Z; Die (3)%Z (6)%Z; Die (5)%Z (6)%Z; Die (1)%Z (6)%Z];
   executed "(5+6)u10[10]+5" [Die (3)%Z (10)%Z; Die (2)%Z (10)%Z; Die (7)%Z (10)%Z; Die (4)%Z (10)%Z; Die (7)%Z (10)%Z; Die (5)%Z (10)%Z; Die (4)%Z (10)%Z; Die (4)%Z (10)%Z; Die (7)%Z (10)%Z; Die (10)%Z (10)%Z; Die (6)%Z (10)%Z; Die (1)%Z (10)%Z]]
  = [Some ("DiceBot : (3U6) ＞ 2U6[5] のように振り足し目標値を指定してください", Unspecified, []);
     Some ("DiceBot : (3U6[1]) ＞ 振り足し目標値として2以上の整数を指定してください", Unspecified, []);
     Some ("DiceBot : (3U6[6]) ＞ 11[6,5],7[6,1],7[6,1] ＞ 11/25 (最大/合計)", Unspecified, [Die (6)%Z (6)%Z; Die (5)%Z (6)%Z; Die (6)%Z (6)%Z; Die (1)%Z (6)%Z; Die (6)%Z (6)%Z; Die (1)%Z (6)%Z]);
     Some ("DiceBot : (3U6[6]) ＞ 11[6,5],7[6,1],7[6,1] ＞ 11/25 (最大/合計)", Unspecified, [Die (6)%Z (6)%Z; Die (5)%Z (6)%Z; Die (6)%Z (6)%Z; Die (1)%Z (6)%Z; Die (6)%Z (6)%Z; Die (1)%Z (6)%Z]);
     Some ("DiceBot : (3U6[6]) ＞ 11[6,5],7[6,1],7[6,1] ＞ 11/25 (最大/合計)", Unspecified, [Die (6)%Z (6)%Z; Die (5)%Z (6)%Z; Die (6)%Z (6)%Z; Die (1)%Z (6)%Z; Die (6)%Z (6)%Z; Die (1)%Z (6)%Z]);
     Some ("DiceBot : (3U6[6]) ＞ 11[6,5],7[6,1],7[6,1] ＞ 11/25 (最大/合計)", Unspecified, [Die (6)%Z (6)%Z; Die (5)%Z (6)%Z; Die (6)%Z (6)%Z; Die (1)%Z (6)%Z; Die (6)%Z (6)%Z; Die (1)%Z (6)%Z]);
     Some ("DiceBot : (6U6[4]) ＞ 2,7[5,2],1,11[4,6,1],8[5,3],3 ＞ 11/32 (最大/合計)", Unspecified, [Die (2)%Z (6)%Z; Die (5)%Z (6)%Z; Die (2)%Z (6)%Z; Die (1)%Z (6)%Z; Die (4)%Z (6)%Z; Die (6)%Z (6)%Z; Die (1)%Z (6)%Z; Die (5)%Z (6)%Z; Die (3)%Z (6)%Z; Die (3)%Z (6)%Z]);
     Some ("DiceBot : (6U6[4]) ＞ 7[4,3],1,1,23[4,6,6,4,3],1,14[6,5,3] ＞ 23/47 (最大/合計)", Unspecified, [Die (4)%Z (6)%Z; Die (3)%Z (6)%Z; Die (1)%Z (6)%Z; Die (1)%Z (6)%Z; Die (4)%Z (6)%Z; Die (6)%Z (6)%Z; Die (6)%Z (6)%Z; Die (4)%Z (6)%Z; Die (3)%Z (6)%Z; Die (1)%Z (6)%Z; Die (6)%Z (6)%Z; Die (5)%Z (6)%Z; Die (3)%Z (6)%Z]);
     Some ("DiceBot : (1U100[96]+3) ＞ 155[98,57]+3 ＞ 158/158 (最大/合計)", Unspecified, [Die (98)%Z (100)%Z; Die (57)%Z (100)%Z]);
     Some ("DiceBot : (3U6[5]+10) ＞ 1,3,6[5,1]+10 ＞ 16/20 (最大/合計)", Unspecified, [Die (1)%Z (6)%Z; Die (3)%Z (6)%Z; Die (5)%Z (6)%Z; Die (1)%Z (6)%Z]);
     Some ("DiceBot : (3U6[5]+10) ＞ 1,3,6[5,1]+10 ＞ 16/20 (最大/合計)", Unspecified, [Die (1)%Z (6)%Z; Die (3)%Z (6)%Z; Die (5)%Z (6)%Z; Die (1)%Z (6)%Z]);
     Some ("DiceBot : (3U6[5]-10) ＞ 1,3,6[5,1]-10 ＞ -4/0 (最大/合計)", Unspecified, [Die (1)%Z (6)%Z; Die (3)%Z (6)%Z; Die (5)%Z (6)%Z; Die (1)%Z (6)%Z]);
     Some ("DiceBot : (3U6[5]-10) ＞ 1,3,6[5,1]-10 ＞ -4/0 (最大/合計)", Unspecified, [Die (1)%Z (6)%Z; Die (3)%Z (6)%Z; Die (5)%Z (6)%Z; Die (1)%Z (6)%Z]);
     Some ("DiceBot : (3U6+5U6[6]) ＞ 3,5,3,10[6,4],1,15[6,6,3],5,1 ＞ 15/43 (最大/合計)", Unspecified, [Die (3)%Z (6)%Z; Die (5)%Z (6)%Z; Die (3)%Z (6)%Z; Die (6)%Z (6)%Z; Die (4)%Z (6)%Z; Die (1)%Z (6)%Z; Die (6)%Z (6)%Z; Die (6)%Z (6)%Z; Die (3)%Z (6)%Z; Die (5)%Z (6)%Z; Die (1)%Z (6)%Z]);
     Some ("DiceBot : (11U10[10]+5) ＞ 3,2,7,4,7,5,4,4,7,16[10,6],1+5 ＞ 21/65 (最大/合計)", Unspecified, [Die (3)%Z (10)%Z; Die (2)%Z (10)%Z; Die (7)%Z (10)%Z; Die (4)%Z (10)%Z; Die (7)%Z (10)%Z; Die (5)%Z (10)%Z; Die (4)%Z (10)%Z; Die (4)%Z (10)%Z; Die (7)%Z (10)%Z; Die (10)%Z (10)%Z; Die (6)%Z (10)%Z; Die (1)%Z (10)%Z])].
Proof. vm_compute. reflexivity. Qed.
(** core/command/execute_u_roll_comp_test.go [TestExecuteURollComp] *)
Example test_execute_u_roll_comp :
  [executed "3U6>=7" [];
   executed "3U6[1]>=7" [];
   executed "3u6[6]=7" [Die (6)%Z (6)%Z; Die (5)%Z (6)%Z; Die (6)%Z (6)%Z; Die (1)%Z (6)%Z; Die (5)%Z (6)%Z];
   executed "3u6[6]=7" [Die (6)%Z (6)%Z; Die (5)%Z (6)%Z; Die (6)%Z (6)%Z; Die (1)%Z (6)%Z; Die (6)%Z (6)%Z; Die (1)%Z (6)%Z];
   executed "3u6[6]-4=7" [Die (6)%Z (6)%Z; Die (5)%Z (6)%Z; Die (6)%Z (6)%Z; Die (1)%Z (6)%Z; Die (5)%Z (6)%Z];
   executed "3u6[6]<>7" [Die (6)%Z (6)%Z; Die (5)%Z (6)%Z; Die (6)%Z (6)%Z; Die (1)%Z (6)%Z; Die (5)%Z (6)%Z];
   executed "3u6[6]<>7" [Die (6)%Z (6)%Z; Die (5)%Z (6)%Z; Die (6)%Z (6)%Z; Die (1)%Z (6)%Z; Die (6)%Z (6)%Z; Die (1)%Z (6)%Z];
   executed "3u6[6]+1<>7" [Die (6)%Z (6)%Z; Die (5)%Z (6)%Z; Die (6)%Z (6)%Z; Die (1)%Z (6)%Z; Die (5)%Z (6)%Z];
   executed "3u6[6]>6" [Die (6)%Z (6)%Z; Die (5)%Z (6)%Z; Die (6)%Z (6)%Z; Die (1)%Z (6)%Z; Die (5)%Z (6)%Z];
   executed "3u6[6]>6" [Die (6)%Z (6)%Z; Die (5)%Z (6)%Z; Die (6)%Z (6)%Z; Die (1)%Z (6)%Z; Die (6)%Z (6)%Z; Die (1)%Z (6)%Z];
   executed "3u6[6]-1>6" [Die (6)%Z (6)%Z; Die (5)%Z (6)%Z; Die (6)%Z (6)%Z; Die (1)%Z (6)%Z; Die (5)%Z (6)%Z];
   executed "3u6[6]<6" [Die (6)%Z (6)%Z; Die (5)%Z (6)%Z; Die (6)%Z (6)%Z; Die (1)%Z (6)%Z; Die (5)%Z (6)%Z];
   executed "3u6[6]<6" [Die (6)%Z (6)%Z; Die (5)%Z (6)%Z; Die (6)%Z (6)%Z; Die (1)%Z (6)%Z; Die (6)%Z (6)%Z; Die (1)%Z (6)%Z];
   executed "3u6[6]-2<6" [Die (6)%Z (6)%Z; Die (5)%Z (6)%Z; Die (6)%Z (6)%Z; Die (1)%Z (6)%Z; Die (5)%Z (6)%Z];
   executed "3u6[6]>=7" [Die (6)%Z (6)%Z; Die (5)%Z (6)%Z; Die (6)%Z (6)%Z; Die (1)%Z (6)%Z; Die (5)%Z (6)%Z];
   executed "3u6[6]>=7" [Die (6)%Z (6)%Z; Die (5)%Z (6)%Z; Die (6)%Z (6)%Z; Die (1)%Z (6)%Z; Die (6)%Z (6)%Z; Die (1)%Z (6)%Z];
   executed "3u6[6]-1>=7" [Die (6)%Z (6)%Z; Die (5)%Z (6)%Z; Die (6)%Z (6)%Z; Die (1)%Z (6)%Z; Die (5)%Z (6)%Z];
   executed "3u6[6]<=7" [Die (6)%Z (6)%Z; Die (5)%Z (6)%Z; Die (6)%Z (6)%Z; Die (1)%Z (6)%Z; Die (5)%Z (6)%Z];
   executed "3u6[6]<=7" [Die (6)%Z (6)%Z; Die (5)%Z (6)%Z; Die (6)%Z (6)%Z; Die (1)%Z (6)%Z; Die (6)%Z (6)%Z; Die (1)%Z (6)%Z];
   executed "3u6[6]-4<=7" [Die (6)%Z (6)%Z; Die (5)%Z (6)%Z; Die (6)%Z (6)%Z; Die (1)%Z (6)%Z; Die (5)%Z (6)%Z];
   executed "3u6+5u6[6]>=7" [Die (3)%Z (6)%Z; Die (5)%Z (6)%Z; Die (3)%Z (6)%Z; Die (6)%Z (6)%Z; Die (4)%Z (6)%Z; Die (1)%Z (6)%Z; Die (6)%Z (6)%Z; Die (6)%Z (6)%Z; Die (3)%Z (6)%Z; Die (5)%Z (6)%Z; Die (1)%Z (6)%Z];
   executed "(5+6)u10[10]+5>=8" [Die (3)%Z (10)%Z; Die (2)%Z (10)%Z; Die (7)%Z (10)%Z; Die (4)%Z (10)%Z; Die (7)%Z (10)%Z; Die (5)%Z (10)%Z; Die (4)%Z (10)%Z; Die (4)%Z (10)%Z; Die (7)%Z (10)%Z; Die (10)%Z (10)%Z; Die (6)%Z (10)%Z; Die (1)%Z (10)%Z]]
  = [Some ("DiceBot : (3U6>=7) ＞ 2U6[5] のように振り足し目標値を指定してください", Unspecified, []);
     Some ("DiceBot : (3U6[1]>=7) ＞ 振り足し目標値として2以上の整数を指定してください", Unspecified, []);
     Some ("DiceBot : (3U6[6]=7) ＞ 11[6,5],7[6,1],5 ＞ 成功数1", Unspecified, [Die (6)%Z (6)%Z; Die (5)%Z (6)%Z; Die (6)%Z (6)%Z; Die (1)%Z (6)%Z; Die (5)%Z (6)%Z]);
     Some ("DiceBot : (3U6[6]=7) ＞ 11[6,5],7[6,1],7[6,1] ＞ 成功数2", Unspecified, [Die (6)%Z (6)%Z; Die (5)%Z (6)%Z; Die (6)%Z (6)%Z; Die (1)%Z (6)%Z; Die (6)%Z (6)%Z; Die (1)%Z (6)%Z]);
     Some ("DiceBot : (3U6[6]-4=7) ＞ 11[6,5],7[6,1],5-4 ＞ 成功数1", Unspecified, [Die (6)%Z (6)%Z; Die (5)%Z (6)%Z; Die (6)%Z (6)%Z; Die (1)%Z (6)%Z; Die (5)%Z (6)%Z]);
     Some ("DiceBot : (3U6[6]<>7) ＞ 11[6,5],7[6,1],5 ＞ 成功数2", Unspecified, [Die (6)%Z (6)%Z; Die (5)%Z (6)%Z; Die (6)%Z (6)%Z; Die (1)%Z (6)%Z; Die (5)%Z (6)%Z]);
     Some ("DiceBot : (3U6[6]<>7) ＞ 11[6,5],7[6,1],7[6,1] ＞ 成功数1", Unspecified, [Die (6)%Z (6)%Z; Die (5)%Z (6)%Z; Die (6)%Z (6)%Z; Die (1)%Z (6)%Z; Die (6)%Z (6)%Z; Die (1)%Z (6)%Z]);
     Some ("DiceBot : (3U6[6]+1<>7) ＞ 11[6,5],7[6,1],5+1 ＞ 成功数3", Unspecified, [Die (6)%Z (6)%Z; Die (5)%Z (6)%Z; Die (6)%Z (6)%Z; Die (1)%Z (6)%Z; Die (5)%Z (6)%Z]);
     Some ("DiceBot : (3U6[6]>6) ＞ 11[6,5],7[6,1],5 ＞ 成功数2", Unspecified, [Die (6)%Z (6)%Z; Die (5)%Z (6)%Z; Die (6)%Z (6)%Z; Die (1)%Z (6)%Z; Die (5)%Z (6)%Z]);
     Some ("DiceBot : (3U6[6]>6) ＞ 11[6,5],7[6,1],7[6,1] ＞ 成功数3", Unspecified, [Die (6)%Z (6)%Z; Die (5)%Z (6)%Z; Die (6)%Z (6)%Z; Die (1)%Z (6)%Z; Die (6)%Z (6)%Z; Die (1)%Z (6)%Z]);
     Some ("DiceBot : (3U6[6]-1>6) ＞ 11[6,5],7[6,1],5-1 ＞ 成功数1", Unspecified, [Die (6)%Z (6)%Z; Die (5)%Z (6)%Z; Die (6)%Z (6)%Z; Die (1)%Z (6)%Z; Die (5)%Z (6)%Z]);
     Some ("DiceBot : (3U6[6]<6) ＞ 11[6,5],7[6,1],5 ＞ 成功数1", Unspecified, [Die (6)%Z (6)%Z; Die (5)%Z (6)%Z; Die (6)%Z (6)%Z; Die (1)%Z (6)%Z; Die (5)%Z (6)%Z]);
     Some ("DiceBot : (3U6[6]<6) ＞ 11[6,5],7[6,1],7[6,1] ＞ 成功数0", Unspecified, [Die (6)%Z (6)%Z; Die (5)%Z (6)%Z; Die (6)%Z (6)%Z; Die (1)%Z (6)%Z; Die (6)%Z (6)%Z; Die (1)%Z (6)%Z]);
     Some ("DiceBot : (3U6[6]-2<6) ＞ 11[6,5],7[6,1],5-2 ＞ 成功数2", Unspecified, [Die (6)%Z (6)%Z; Die (5)%Z (6)%Z; Die (6)%Z (6)%Z; Die (1)%Z (6)%Z; Die (5)%Z (6)%Z]);
     Some ("DiceBot : (3U6[6]>=7) ＞ 11[6,5],7[6,1],5 ＞ 成功数2", Unspecified, [Die (6)%Z (6)%Z; Die (5)%Z (6)%Z; Die (6)%Z (6)%Z; Die (1)%Z (6)%Z; Die (5)%Z (6)%Z]);
     Some ("DiceBot : (3U6[6]>=7) ＞ 11[6,5],7[6,1],7[6,1] ＞ 成功数3", Unspecified, [Die (6)%Z (6)%Z; Die (5)%Z (6)%Z; Die (6)%Z (6)%Z; Die (1)%Z (6)%Z; Die (6)%Z (6)%Z; Die (1)%Z (6)%Z]);
     Some ("DiceBot : (3U6[6]-1>=7) ＞ 11[6,5],7[6,1],5-1 ＞ 成功数1", Unspecified, [Die (6)%Z (6)%Z; Die (5)%Z (6)%Z; Die (6)%Z (6)%Z; Die (1)%Z (6)%Z; Die (5)%Z (6)%Z]);
     Some ("DiceBot : (3U6[6]<=7) ＞ 11[6,5],7[6,1],5 ＞ 成功数2", Unspecified, [Die (6)%Z (6)%Z; Die (5)%Z (6)%Z; Die (6)%Z (6)%Z; Die (1)%Z (6)%Z; Die (5)%Z (6)%Z]);
     Some ("DiceBot : (3U6[6]<=7) ＞ 11[6,5],7[6,1],7[6,1] ＞ 成功数2", Unspecified, [Die (6)%Z (6)%Z; Die (5)%Z (6)%Z; Die (6)%Z (6)%Z; Die (1)%Z (6)%Z; Die (6)%Z (6)%Z; Die (1)%Z (6)%Z]);
     Some ("DiceBot : (3U6[6]-4<=7) ＞ 11[6,5],7[6,1],5-4 ＞ 成功数3", Unspecified, [Die (6)%Z (6)%Z; Die (5)%Z (6)%Z; Die (6)%Z (6)%Z; Die (1)%Z (6)%Z; Die (5)%Z (6)%Z]);
     Some ("DiceBot : (3U6+5U6[6]>=7) ＞ 3,5,3,10[6,4],1,15[6,6,3],5,1 ＞ 成功数2", Unspecified, [Die (3)%Z (6)%Z; Die (5)%Z (6)%Z; Die (3)%Z (6)%Z; Die (6)%Z (6)%Z; Die (4)%Z (6)%Z; Die (1)%Z (6)%Z; Die (6)%Z (6)%Z; Die (6)%Z (6)%Z; Die (3)%Z (6)%Z; Die (5)%Z (6)%Z; Die (1)%Z (6)%Z]);
     Some ("DiceBot : (11U10[10]+5>=8) ＞ 3,2,7,4,7,5,4,4,7,16[10,6],1+5 ＞ 成功数9", Unspecified, [Die (3)%Z (10)%Z; Die (2)%Z (10)%Z; Die (7)%Z (10)%Z; Die (4)%Z (10)%Z; Die (7)%Z (10)%Z; Die (5)%Z (10)%Z; Die (4)%Z (10)%Z; Die (4)%Z (10)%Z; Die (7)%Z (10)%Z; Die (10)%Z (10)%Z; Die (6)%Z (10)%Z; Die (1)%Z (10)%Z])].
Proof. vm_compute. reflexivity. Qed.
(** core/command/execute_choice_test.go [TestExecuteChoice] *)
Example test_execute_choice :
  [executed "choice[A,B,C,D]どれにしよう" [Die (1)%Z (4)%Z];
   executed "choice[A,B,C,D]どれにしよう" [Die (2)%Z (4)%Z];
   executed "choice[A,B,C,D]どれにしよう" [Die (3)%Z (4)%Z];
   executed "choice[A,B,C,D]どれにしよう" [Die (4)%Z (4)%Z];
   executed "CHOICE[Call of Cthulhu, Sword World, Double Cross]" [Die (1)%Z (3)%Z];
   executed "CHOICE[Call of Cthulhu, Sword World, Double Cross]" [Die (2)%Z (3)%Z];
   executed "CHOICE[Call of Cthulhu, Sword World, Double Cross]" [Die (3)%Z (3)%Z];
   executed "CHOICE[日本語, でも,　だいじょうぶ]" [Die (1)%Z (3)%Z];
   executed "CHOICE[日本語, でも,　だいじょうぶ]" [Die (2)%Z (3)%Z];
   executed "CHOICE[日本語, でも,　だいじょうぶ]" [Die (3)%Z (3)%Z];
   executed "choice[1+2, (3*4), 5d6]" [Die (1)%Z (3)%Z];
   executed "choice[1+2, (3*4), 5d6]" [Die (2)%Z (3)%Z];
   executed "choice[1+2, (3*4), 5d6]" [Die (3)%Z (3)%Z]]
  = [Some ("DiceBot : (CHOICE[A,B,C,D]) ＞ A", Unspecified, [Die (1)%Z (4)%Z]);
     Some ("DiceBot : (CHOICE[A,B,C,D]) ＞ B", Unspecified, [Die (2)%Z (4)%Z]);
     Some ("DiceBot : (CHOICE[A,B,C,D]) ＞ C", Unspecified, [Die (3)%Z (4)%Z]);
     Some ("DiceBot : (CHOICE[A,B,C,D]) ＞ D", Unspecified, [Die (4)%Z (4)%Z]);
     Some ("DiceBot : (CHOICE[Call of Cthulhu,Sword World,Double Cross]) ＞ Call of Cthulhu", Unspecified, [Die (1)%Z (3)%Z]);
     Some ("DiceBot : (CHOICE[Call of Cthulhu,Sword World,Double Cross]) ＞ Sword World", Unspecified, [Die (2)%Z (3)%Z]);
     Some ("DiceBot : (CHOICE[Call of Cthulhu,Sword World,Double Cross]) ＞ Double Cross", Unspecified, [Die (3)%Z (3)%Z]);
     Some ("DiceBot : (CHOICE[日本語,でも,だいじょうぶ]) ＞ 日本語", Unspecified, [Die (1)%Z (3)%Z]);
     Some ("DiceBot : (CHOICE[日本語,でも,だいじょうぶ]) ＞ でも", Unspecified, [Die (2)%Z (3)%Z]);
     Some ("DiceBot : (CHOICE[日本語,でも,だいじょうぶ]) ＞ だいじょうぶ", Unspecified, [Die (3)%Z (3)%Z]);
     Some ("DiceBot : (CHOICE[1+2,(3*4),5d6]) ＞ 1+2", Unspecified, [Die (1)%Z (3)%Z]);
     Some ("DiceBot : (CHOICE[1+2,(3*4),5d6]) ＞ (3*4)", Unspecified, [Die (2)%Z (3)%Z]);
     Some ("DiceBot : (CHOICE[1+2,(3*4),5d6]) ＞ 5d6", Unspecified, [Die (3)%Z (3)%Z])].
Proof. vm_compute. reflexivity. Qed.
(** core/evaluator/eval_var_args_test.go [TestEvalVarArgs] *)
Example test_eval_var_args :
  [shown (eval_var_args default_max_rerolls) "(1+2)d6" [];
   shown (eval_var_args default_max_rerolls) "4d(3*2)" [];
   shown (eval_var_args default_max_rerolls) "(8/2)D(4+6)" [];
   shown (eval_var_args default_max_rerolls) "-(1+2)d6" [];
   shown (eval_var_args default_max_rerolls) "(2+3)d6-1+3d6+2" [];
   shown (eval_var_args default_max_rerolls) "(2*3-4)d6-1d4+1" [];
   shown (eval_var_args default_max_rerolls) "((2+3)*4/3)d6*2+5" [];
   shown (eval_var_args default_max_rerolls) "(2-1)d(8/2)*(1+1)d(3*4/2)+2*3" [];
   shown (eval_var_args default_max_rerolls) "[1...5]D6" [Die (4)%Z (5)%Z];
   shown (eval_var_args default_max_rerolls) "([2...4]+2)D10" [Die (3)%Z (3)%Z];
   shown (eval_var_args default_max_rerolls) "[(2+3)...8]D6" [Die (1)%Z (4)%Z];
   shown (eval_var_args default_max_rerolls) "[5...(7+1)]D6" [Die (1)%Z (4)%Z];
   shown (eval_var_args default_max_rerolls) "2d[1...5]" [Die (2)%Z (5)%Z];
   shown (eval_var_args default_max_rerolls) "2d([2...4]+2)" [Die (2)%Z (3)%Z];
   shown (eval_var_args default_max_rerolls) "2d[(2+3)...8]" [Die (4)%Z (4)%Z];
   shown (eval_var_args default_max_rerolls) "2d[5...(7+1)]" [Die (4)%Z (4)%Z];
   shown (eval_var_args default_max_rerolls) "([1...4]+1)d([2...4]+2)-1" [Die (2)%Z (4)%Z; Die (3)%Z (3)%Z];
   shown (eval_var_args default_max_rerolls) "(1*2)D6+1>7" [];
   shown (eval_var_args default_max_rerolls) "2D(3*2)+1>7" [];
   shown (eval_var_args default_max_rerolls) "(1*2)d6+3d(3+1)>15" [];
   shown (eval_var_args default_max_rerolls) "2d6+1>3+4" [];
   shown (eval_var_args default_max_rerolls) "[1...3]b6" [Die (1)%Z (3)%Z];
   shown (eval_var_args default_max_rerolls) "2b[4...6]" [Die (1)%Z (3)%Z];
   shown (eval_var_args default_max_rerolls) "[1...3]b[4...6]" [Die (3)%Z (3)%Z; Die (3)%Z (3)%Z];
   shown (eval_var_args default_max_rerolls) "(1*2)b6" [];
   shown (eval_var_args default_max_rerolls) "([1...3]+1)b6" [Die (2)%Z (3)%Z];
   shown (eval_var_args default_max_rerolls) "2b(2+4)" [];
   shown (eval_var_args default_max_rerolls) "2b([3...5]+1)" [Die (2)%Z (3)%Z];
   shown (eval_var_args default_max_rerolls) "(1*2)b(2+4)" [];
   shown (eval_var_args default_max_rerolls) "(1*2)b(2+4)+(8/2)b(101/10R)" [];
   shown (eval_var_args default_max_rerolls) "2b6+4b10>10/3" [];
   shown (eval_var_args default_max_rerolls) "(3+2)r6" [];
   shown (eval_var_args default_max_rerolls) "1r(2*3)" [];
   shown (eval_var_args default_max_rerolls) "(1*3)r6+2r(5+1)" [];
   shown (eval_var_args default_max_rerolls) "6R6[2*3]" [];
   shown (eval_var_args default_max_rerolls) "3r6>1*4" [];
   shown (eval_var_args default_max_rerolls) "(1+2)u6[6]" [];
   shown (eval_var_args default_max_rerolls) "3u(2*3)[6]" [];
   shown (eval_var_args default_max_rerolls) "3u6[12/2]" [];
   shown (eval_var_args default_max_rerolls) "3u6[5]-(-2-2*4)" [];
   shown (eval_var_args default_max_rerolls) "3u6[5]+(-2-2*4)" [];
   shown (eval_var_args default_max_rerolls) "3u6[5]+(-2+2)" [];
   shown (eval_var_args default_max_rerolls) "(5+6)u10[10]+5" []]
  = [Some "(DRollExpr (DRoll 3 6))";
     Some "(DRollExpr (DRoll 4 6))";
     Some "(DRollExpr (DRoll 4 10))";
     Some "(DRollExpr (- (DRoll 3 6)))";
     Some "(DRollExpr (+ (+ (- (DRoll 5 6) 1) (DRoll 3 6)) 2))";
     Some "(DRollExpr (+ (- (DRoll 2 6) (DRoll 1 4)) 1))";
     Some "(DRollExpr (+ (* (DRoll 6 6) 2) 5))";
     Some "(DRollExpr (+ (* (DRoll 1 4) (DRoll 2 6)) (* 2 3)))";
     Some "(DRollExpr (DRoll 4 6))";
     Some "(DRollExpr (DRoll 6 10))";
     Some "(DRollExpr (DRoll 5 6))";
     Some "(DRollExpr (DRoll 5 6))";
     Some "(DRollExpr (DRoll 2 2))";
     Some "(DRollExpr (DRoll 2 5))";
     Some "(DRollExpr (DRoll 2 8))";
     Some "(DRollExpr (DRoll 2 8))";
     Some "(DRollExpr (- (DRoll 3 6) 1))";
     Some "(DRollComp (> (+ (DRoll 2 6) 1) 7))";
     Some "(DRollComp (> (+ (DRoll 2 6) 1) 7))";
     Some "(DRollComp (> (+ (DRoll 2 6) (DRoll 3 4)) 15))";
     Some "(DRollComp (> (+ (DRoll 2 6) 1) 7))";
     Some "(BRollList (BRoll 1 6))";
     Some "(BRollList (BRoll 2 4))";
     Some "(BRollList (BRoll 3 6))";
     Some "(BRollList (BRoll 2 6))";
     Some "(BRollList (BRoll 3 6))";
     Some "(BRollList (BRoll 2 6))";
     Some "(BRollList (BRoll 2 5))";
     Some "(BRollList (BRoll 2 6))";
     Some "(BRollList (BRoll 2 6) (BRoll 4 10))";
     Some "(BRollComp (> (BRollList (BRoll 2 6) (BRoll 4 10)) 3))";
     Some "(RRollList nil (RRoll 5 6))";
     Some "(RRollList nil (RRoll 1 6))";
     Some "(RRollList nil (RRoll 3 6) (RRoll 2 6))";
     Some "(RRollList 6 (RRoll 6 6))";
     Some "(RRollComp (> (RRollList nil (RRoll 3 6)) 4))";
     Some "(URollExpr (RRollList 6 (URoll 3 6)))";
     Some "(URollExpr (RRollList 6 (URoll 3 6)))";
     Some "(URollExpr (RRollList 6 (URoll 3 6)))";
     Some "(URollExpr (+ (RRollList 5 (URoll 3 6)) 10))";
     Some "(URollExpr (- (RRollList 5 (URoll 3 6)) 10))";
     Some "(URollExpr (RRollList 5 (URoll 3 6)))";
     Some "(URollExpr (+ (RRollList 10 (URoll 11 10)) 5))"].
Proof. vm_compute. reflexivity. Qed.
(** core/evaluator/determine_values_test.go [TestDetermineValues] *)
Example test_determine_values :
  [shown determine_values "2D6" [Die (5)%Z (6)%Z; Die (3)%Z (6)%Z];
   shown determine_values "2D4" [Die (1)%Z (4)%Z; Die (2)%Z (4)%Z];
   shown determine_values "2D6+1" [Die (2)%Z (6)%Z; Die (6)%Z (6)%Z];
   shown determine_values "1+2D6" [Die (4)%Z (6)%Z; Die (3)%Z (6)%Z];
   shown determine_values "2d6+1-1-2-3-4" [Die (1)%Z (6)%Z; Die (6)%Z (6)%Z];
   shown determine_values "2D6+4D10" [Die (5)%Z (6)%Z; Die (4)%Z (6)%Z; Die (1)%Z (10)%Z; Die (9)%Z (10)%Z; Die (7)%Z (10)%Z; Die (4)%Z (10)%Z];
   shown determine_values "2d6*3" [Die (2)%Z (6)%Z; Die (4)%Z (6)%Z];
   shown determine_values "2d10+3-4" [Die (3)%Z (10)%Z; Die (5)%Z (10)%Z];
   shown determine_values "2d10+3*4" [Die (3)%Z (10)%Z; Die (5)%Z (10)%Z];
   shown determine_values "2d6*3-1d6+1" [Die (6)%Z (6)%Z; Die (2)%Z (6)%Z; Die (3)%Z (6)%Z];
   shown determine_values "1D6/2" [Die (1)%Z (6)%Z];
   shown determine_values "3D6/2" [Die (1)%Z (6)%Z; Die (2)%Z (6)%Z; Die (4)%Z (6)%Z];
   shown determine_values "3D6/2+1D6" [Die (1)%Z (6)%Z; Die (2)%Z (6)%Z; Die (4)%Z (6)%Z; Die (5)%Z (6)%Z];
   shown determine_values "3D6+1D6/2" [Die (1)%Z (6)%Z; Die (2)%Z (6)%Z; Die (4)%Z (6)%Z; Die (5)%Z (6)%Z];
   shown determine_values "3D6+1D6/2U" [Die (1)%Z (6)%Z; Die (2)%Z (6)%Z; Die (4)%Z (6)%Z; Die (5)%Z (6)%Z];
   shown determine_values "5D6/10" [Die (6)%Z (6)%Z; Die (6)%Z (6)%Z; Die (6)%Z (6)%Z; Die (6)%Z (6)%Z; Die (5)%Z (6)%Z];
   shown determine_values "3D6/2U" [Die (1)%Z (6)%Z; Die (2)%Z (6)%Z; Die (4)%Z (6)%Z];
   shown determine_values "5D6/10u" [Die (6)%Z (6)%Z; Die (6)%Z (6)%Z; Die (6)%Z (6)%Z; Die (2)%Z (6)%Z; Die (1)%Z (6)%Z];
   shown determine_values "1D100/10R" [Die (55)%Z (100)%Z];
   shown determine_values "1D100/10r" [Die (54)%Z (100)%Z]]
  = [Some "(DRollExpr (SumRollResult (Die 5 6) (Die 3 6)))";
     Some "(DRollExpr (SumRollResult (Die 1 4) (Die 2 4)))";
     Some "(DRollExpr (+ (SumRollResult (Die 2 6) (Die 6 6)) 1))";
     Some "(DRollExpr (+ 1 (SumRollResult (Die 4 6) (Die 3 6))))";
     Some "(DRollExpr (- (- (- (- (+ (SumRollResult (Die 1 6) (Die 6 6)) 1) 1) 2) 3) 4))";
     Some "(DRollExpr (+ (SumRollResult (Die 5 6) (Die 4 6)) (SumRollResult (Die 1 10) (Die 9 10) (Die 7 10) (Die 4 10))))";
     Some "(DRollExpr (* (SumRollResult (Die 2 6) (Die 4 6)) 3))";
     Some "(DRollExpr (- (+ (SumRollResult (Die 3 10) (Die 5 10)) 3) 4))";
     Some "(DRollExpr (+ (SumRollResult (Die 3 10) (Die 5 10)) (* 3 4)))";
     Some "(DRollExpr (+ (- (* (SumRollResult (Die 6 6) (Die 2 6)) 3) (SumRollResult (Die 3 6))) 1))";
     Some "(DRollExpr (/ (SumRollResult (Die 1 6)) 2))";
     Some "(DRollExpr (/ (SumRollResult (Die 1 6) (Die 2 6) (Die 4 6)) 2))";
     Some "(DRollExpr (+ (/ (SumRollResult (Die 1 6) (Die 2 6) (Die 4 6)) 2) (SumRollResult (Die 5 6))))";
     Some "(DRollExpr (+ (SumRollResult (Die 1 6) (Die 2 6) (Die 4 6)) (/ (SumRollResult (Die 5 6)) 2)))";
     Some "(DRollExpr (+ (SumRollResult (Die 1 6) (Die 2 6) (Die 4 6)) (/U (SumRollResult (Die 5 6)) 2)))";
     Some "(DRollExpr (/ (SumRollResult (Die 6 6) (Die 6 6) (Die 6 6) (Die 6 6) (Die 5 6)) 10))";
     Some "(DRollExpr (/U (SumRollResult (Die 1 6) (Die 2 6) (Die 4 6)) 2))";
     Some "(DRollExpr (/U (SumRollResult (Die 6 6) (Die 6 6) (Die 6 6) (Die 2 6) (Die 1 6)) 10))";
     Some "(DRollExpr (/R (SumRollResult (Die 55 100)) 10))";
     Some "(DRollExpr (/R (SumRollResult (Die 54 100)) 10))"].
Proof. vm_compute. reflexivity. Qed.
(** core/evaluator/reroll_threshold_test.go [TestSetRerollThreshold] *)
Example test_set_reroll_threshold :
  [threshold_set "3r6<=4";
   threshold_set "3r6+2r4<=2";
   threshold_set "(3+2)r6>=5";
   threshold_set "1r(2*3)>=4";
   threshold_set "3r6>1*4";
   threshold_set "6R6[6]>=5"]
  = [Some "(RRollComp (<= (RRollList 4 (RRoll 3 6)) 4))";
     Some "(RRollComp (<= (RRollList 2 (RRoll 3 6) (RRoll 2 4)) 2))";
     Some "(RRollComp (>= (RRollList 5 (RRoll (+ 3 2) 6)) 5))";
     Some "(RRollComp (>= (RRollList 4 (RRoll 1 (* 2 3))) 4))";
     Some "(RRollComp (> (RRollList 4 (RRoll 3 6)) (* 1 4)))";
     Some "(RRollComp (>= (RRollList 6 (RRoll 6 6)) 5))"].
Proof. vm_compute. reflexivity. Qed.
(** core/evaluator/reroll_threshold_test.go [TestCheckRRollThreshold] *)
Example test_CheckRRollThreshold :
  [threshold_checked "2r6[4]";
   threshold_checked "6R6[6]";
   threshold_checked "2r6";
   threshold_checked "2r6[0]";
   threshold_checked "2r6+3r4[1]"]
  = [Some (None, []);
     Some (None, []);
     Some (Some "2R6>=5 あるいは 2R6[5] のように振り足し目標値を指定してください", []);
     Some (Some "振り足し目標値として2以上の整数を指定してください", []);
     Some (Some "振り足し目標値として2以上の整数を指定してください", [])].
Proof. vm_compute. reflexivity. Qed.
(** core/evaluator/reroll_threshold_test.go [TestCheckURollThreshold] *)
Example test_CheckURollThreshold :
  [threshold_checked "2u6[4]";
   threshold_checked "6U6[6]";
   threshold_checked "2u6";
   threshold_checked "2u6[0]";
   threshold_checked "2u6+3u4[1]"]
  = [Some (None, []);
     Some (None, []);
     Some (Some "2U6[5] のように振り足し目標値を指定してください", []);
     Some (Some "振り足し目標値として2以上の整数を指定してください", []);
     Some (Some "振り足し目標値として2以上の整数を指定してください", [])].
Proof. vm_compute. reflexivity. Qed.
(** core/evaluator/eval_calc_test.go [TestEvalCalc] *)
Example test_eval_calc :
  [evaluated the_eval "C(5)" [];
   evaluated the_eval "C(10)" [];
   evaluated the_eval "C(42)" [];
   evaluated the_eval "C(65535)" [];
   evaluated the_eval "C(-5)" [];
   evaluated the_eval "C(-10)" [];
   evaluated the_eval "C(-42)" [];
   evaluated the_eval "C(-65535)" [];
   evaluated the_eval "C(+5)" [];
   evaluated the_eval "C(+10)" [];
   evaluated the_eval "C(+42)" [];
   evaluated the_eval "C(+65535)" [];
   evaluated the_eval "C(1+2)" [];
   evaluated the_eval "C(1-2)" [];
   evaluated the_eval "C(1*2)" [];
   evaluated the_eval "C(1/2)" [];
   evaluated the_eval "C(-1+2)" [];
   evaluated the_eval "C(+1+2)" [];
   evaluated the_eval "C(1+2-3)" [];
   evaluated the_eval "C(1*2+3)" [];
   evaluated the_eval "C(1/2+3)" [];
   evaluated the_eval "C(1+2*3)" [];
   evaluated the_eval "C(1+2/3)" [];
   evaluated the_eval "C(1+(2-3))" [];
   evaluated the_eval "C((1+2)*3)" [];
   evaluated the_eval "C((1+2)/3)" [];
   evaluated the_eval "C(-(1+2))" [];
   evaluated the_eval "C(+(1+2))" [];
   evaluated the_eval "C(1+50/3-2)" [];
   evaluated the_eval "C(1+50/3u-2)" [];
   evaluated the_eval "C(1+50/3r-2)" [];
   evaluated the_eval "C(1+100/3-2)" [];
   evaluated the_eval "C(1+100/3u-2)" [];
   evaluated the_eval "C(1+100/3r-2)" []]
  = [Some (OInt (5)%Z, []);
     Some (OInt (10)%Z, []);
     Some (OInt (42)%Z, []);
     Some (OInt (65535)%Z, []);
     Some (OInt (-5)%Z, []);
     Some (OInt (-10)%Z, []);
     Some (OInt (-42)%Z, []);
     Some (OInt (-65535)%Z, []);
     Some (OInt (5)%Z, []);
     Some (OInt (10)%Z, []);
     Some (OInt (42)%Z, []);
     Some (OInt (65535)%Z, []);
     Some (OInt (3)%Z, []);
     Some (OInt (-1)%Z, []);
     Some (OInt (2)%Z, []);
     Some (OInt (0)%Z, []);
     Some (OInt (1)%Z, []);
     Some (OInt (3)%Z, []);
     Some (OInt (0)%Z, []);
     Some (OInt (5)%Z, []);
     Some (OInt (3)%Z, []);
     Some (OInt (7)%Z, []);
     Some (OInt (1)%Z, []);
     Some (OInt (0)%Z, []);
     Some (OInt (9)%Z, []);
     Some (OInt (1)%Z, []);
     Some (OInt (-3)%Z, []);
     Some (OInt (3)%Z, []);
     Some (OInt (15)%Z, []);
     Some (OInt (16)%Z, []);
     Some (OInt (16)%Z, []);
     Some (OInt (32)%Z, []);
     Some (OInt (33)%Z, []);
     Some (OInt (32)%Z, [])].
Proof. vm_compute. reflexivity. Qed.
(** core/evaluator/eval_d_roll_expr_test.go [TestEvalDRollExpr] *)
Example test_eval_d_roll_expr :
  [evaluated the_eval "2D6" [Die (5)%Z (6)%Z; Die (3)%Z (6)%Z];
   evaluated the_eval "2D4" [Die (1)%Z (4)%Z; Die (2)%Z (4)%Z];
   evaluated the_eval "2D6+1" [Die (2)%Z (6)%Z; Die (6)%Z (6)%Z];
   evaluated the_eval "1+2D6" [Die (4)%Z (6)%Z; Die (3)%Z (6)%Z];
   evaluated the_eval "2d6+1-1-2-3-4" [Die (1)%Z (6)%Z; Die (6)%Z (6)%Z];
   evaluated the_eval "2D6+4D10" [Die (5)%Z (6)%Z; Die (4)%Z (6)%Z; Die (1)%Z (10)%Z; Die (9)%Z (10)%Z; Die (7)%Z (10)%Z; Die (4)%Z (10)%Z];
   evaluated the_eval "2d6*3" [Die (2)%Z (6)%Z; Die (4)%Z (6)%Z];
   evaluated the_eval "2d10+3-4" [Die (3)%Z (10)%Z; Die (5)%Z (10)%Z];
   evaluated the_eval "2d10+3*4" [Die (3)%Z (10)%Z; Die (5)%Z (10)%Z];
   evaluated the_eval "2d6*3-1d6+1" [Die (6)%Z (6)%Z; Die (2)%Z (6)%Z; Die (3)%Z (6)%Z];
   evaluated the_eval "(2+3)d6-1+3d6+2" [Die (2)%Z (6)%Z; Die (3)%Z (6)%Z; Die (1)%Z (6)%Z; Die (5)%Z (6)%Z; Die (6)%Z (6)%Z; Die (5)%Z (6)%Z; Die (4)%Z (6)%Z; Die (4)%Z (6)%Z];
   evaluated the_eval "(2*3-4)d6-1d4+1" [Die (6)%Z (6)%Z; Die (5)%Z (6)%Z; Die (2)%Z (4)%Z];
   evaluated the_eval "((2+3)*4/3)d6*2+5" [Die (6)%Z (6)%Z; Die (5)%Z (6)%Z; Die (6)%Z (6)%Z; Die (2)%Z (6)%Z; Die (1)%Z (6)%Z; Die (4)%Z (6)%Z];
   evaluated the_eval "1D6/2" [Die (1)%Z (6)%Z];
   evaluated the_eval "3D6/2" [Die (1)%Z (6)%Z; Die (2)%Z (6)%Z; Die (4)%Z (6)%Z];
   evaluated the_eval "3D6/2+1D6" [Die (1)%Z (6)%Z; Die (2)%Z (6)%Z; Die (4)%Z (6)%Z; Die (5)%Z (6)%Z];
   evaluated the_eval "3D6+1D6/2" [Die (1)%Z (6)%Z; Die (2)%Z (6)%Z; Die (4)%Z (6)%Z; Die (5)%Z (6)%Z];
   evaluated the_eval "3D6+1D6/2U" [Die (1)%Z (6)%Z; Die (2)%Z (6)%Z; Die (4)%Z (6)%Z; Die (5)%Z (6)%Z];
   evaluated the_eval "5D6/10" [Die (6)%Z (6)%Z; Die (6)%Z (6)%Z; Die (6)%Z (6)%Z; Die (6)%Z (6)%Z; Die (5)%Z (6)%Z];
   evaluated the_eval "3D6/2U" [Die (1)%Z (6)%Z; Die (2)%Z (6)%Z; Die (4)%Z (6)%Z];
   evaluated the_eval "5D6/10u" [Die (6)%Z (6)%Z; Die (6)%Z (6)%Z; Die (6)%Z (6)%Z; Die (2)%Z (6)%Z; Die (1)%Z (6)%Z];
   evaluated the_eval "1D100/10R" [Die (55)%Z (100)%Z];
   evaluated the_eval "1D100/10r" [Die (54)%Z (100)%Z];
   evaluated the_eval "[1...5]D6" [Die (4)%Z (5)%Z; Die (5)%Z (6)%Z; Die (3)%Z (6)%Z; Die (4)%Z (6)%Z; Die (3)%Z (6)%Z];
   evaluated the_eval "([2...4]+2)D10" [Die (3)%Z (3)%Z; Die (8)%Z (10)%Z; Die (7)%Z (10)%Z; Die (2)%Z (10)%Z; Die (1)%Z (10)%Z; Die (6)%Z (10)%Z; Die (5)%Z (10)%Z];
   evaluated the_eval "[(2+3)...8]D6" [Die (1)%Z (4)%Z; Die (1)%Z (6)%Z; Die (2)%Z (6)%Z; Die (4)%Z (6)%Z; Die (6)%Z (6)%Z; Die (1)%Z (6)%Z];
   evaluated the_eval "[5...(7+1)]D6" [Die (1)%Z (4)%Z; Die (1)%Z (6)%Z; Die (2)%Z (6)%Z; Die (4)%Z (6)%Z; Die (6)%Z (6)%Z; Die (1)%Z (6)%Z];
   evaluated the_eval "2d[1...5]" [Die (2)%Z (5)%Z; Die (1)%Z (2)%Z; Die (2)%Z (2)%Z];
   evaluated the_eval "2d([2...4]+2)" [Die (2)%Z (3)%Z; Die (4)%Z (5)%Z; Die (3)%Z (5)%Z];
   evaluated the_eval "2d[(2+3)...8]" [Die (4)%Z (4)%Z; Die (3)%Z (8)%Z; Die (7)%Z (8)%Z];
   evaluated the_eval "2d[5...(7+1)]" [Die (4)%Z (4)%Z; Die (3)%Z (8)%Z; Die (7)%Z (8)%Z];
   evaluated the_eval "([1...4]+1)d([2...4]+2)-1" [Die (2)%Z (4)%Z; Die (3)%Z (3)%Z; Die (5)%Z (6)%Z; Die (5)%Z (6)%Z; Die (4)%Z (6)%Z]]
  = [Some (OInt (8)%Z, [Die (5)%Z (6)%Z; Die (3)%Z (6)%Z]);
     Some (OInt (3)%Z, [Die (1)%Z (4)%Z; Die (2)%Z (4)%Z]);
     Some (OInt (9)%Z, [Die (2)%Z (6)%Z; Die (6)%Z (6)%Z]);
     Some (OInt (8)%Z, [Die (4)%Z (6)%Z; Die (3)%Z (6)%Z]);
     Some (OInt (-2)%Z, [Die (1)%Z (6)%Z; Die (6)%Z (6)%Z]);
     Some (OInt (30)%Z, [Die (5)%Z (6)%Z; Die (4)%Z (6)%Z; Die (1)%Z (10)%Z; Die (9)%Z (10)%Z; Die (7)%Z (10)%Z; Die (4)%Z (10)%Z]);
     Some (OInt (18)%Z, [Die (2)%Z (6)%Z; Die (4)%Z (6)%Z]);
     Some (OInt (7)%Z, [Die (3)%Z (10)%Z; Die (5)%Z (10)%Z]);
     Some (OInt (20)%Z, [Die (3)%Z (10)%Z; Die (5)%Z (10)%Z]);
     Some (OInt (22)%Z, [Die (6)%Z (6)%Z; Die (2)%Z (6)%Z; Die (3)%Z (6)%Z]);
     Some (OInt (31)%Z, [Die (2)%Z (6)%Z; Die (3)%Z (6)%Z; Die (1)%Z (6)%Z; Die (5)%Z (6)%Z; Die (6)%Z (6)%Z; Die (5)%Z (6)%Z; Die (4)%Z (6)%Z; Die (4)%Z (6)%Z]);
     Some (OInt (10)%Z, [Die (6)%Z (6)%Z; Die (5)%Z (6)%Z; Die (2)%Z (4)%Z]);
     Some (OInt (53)%Z, [Die (6)%Z (6)%Z; Die (5)%Z (6)%Z; Die (6)%Z (6)%Z; Die (2)%Z (6)%Z; Die (1)%Z (6)%Z; Die (4)%Z (6)%Z]);
     Some (OInt (0)%Z, [Die (1)%Z (6)%Z]);
     Some (OInt (3)%Z, [Die (1)%Z (6)%Z; Die (2)%Z (6)%Z; Die (4)%Z (6)%Z]);
     Some (OInt (8)%Z, [Die (1)%Z (6)%Z; Die (2)%Z (6)%Z; Die (4)%Z (6)%Z; Die (5)%Z (6)%Z]);
     Some (OInt (9)%Z, [Die (1)%Z (6)%Z; Die (2)%Z (6)%Z; Die (4)%Z (6)%Z; Die (5)%Z (6)%Z]);
     Some (OInt (10)%Z, [Die (1)%Z (6)%Z; Die (2)%Z (6)%Z; Die (4)%Z (6)%Z; Die (5)%Z (6)%Z]);
     Some (OInt (2)%Z, [Die (6)%Z (6)%Z; Die (6)%Z (6)%Z; Die (6)%Z (6)%Z; Die (6)%Z (6)%Z; Die (5)%Z (6)%Z]);
     Some (OInt (4)%Z, [Die (1)%Z (6)%Z; Die (2)%Z (6)%Z; Die (4)%Z (6)%Z]);
     Some (OInt (3)%Z, [Die (6)%Z (6)%Z; Die (6)%Z (6)%Z; Die (6)%Z (6)%Z; Die (2)%Z (6)%Z; Die (1)%Z (6)%Z]);
     Some (OInt (6)%Z, [Die (55)%Z (100)%Z]);
     Some (OInt (5)%Z, [Die (54)%Z (100)%Z]);
     Some (OInt (15)%Z, [Die (4)%Z (5)%Z; Die (5)%Z (6)%Z; Die (3)%Z (6)%Z; Die (4)%Z (6)%Z; Die (3)%Z (6)%Z]);
     Some (OInt (29)%Z, [Die (3)%Z (3)%Z; Die (8)%Z (10)%Z; Die (7)%Z (10)%Z; Die (2)%Z (10)%Z; Die (1)%Z (10)%Z; Die (6)%Z (10)%Z; Die (5)%Z (10)%Z]);
     Some (OInt (14)%Z, [Die (1)%Z (4)%Z; Die (1)%Z (6)%Z; Die (2)%Z (6)%Z; Die (4)%Z (6)%Z; Die (6)%Z (6)%Z; Die (1)%Z (6)%Z]);
     Some (OInt (14)%Z, [Die (1)%Z (4)%Z; Die (1)%Z (6)%Z; Die (2)%Z (6)%Z; Die (4)%Z (6)%Z; Die (6)%Z (6)%Z; Die (1)%Z (6)%Z]);
     Some (OInt (3)%Z, [Die (2)%Z (5)%Z; Die (1)%Z (2)%Z; Die (2)%Z (2)%Z]);
     Some (OInt (7)%Z, [Die (2)%Z (3)%Z; Die (4)%Z (5)%Z; Die (3)%Z (5)%Z]);
     Some (OInt (10)%Z, [Die (4)%Z (4)%Z; Die (3)%Z (8)%Z; Die (7)%Z (8)%Z]);
     Some (OInt (10)%Z, [Die (4)%Z (4)%Z; Die (3)%Z (8)%Z; Die (7)%Z (8)%Z]);
     Some (OInt (13)%Z, [Die (2)%Z (4)%Z; Die (3)%Z (3)%Z; Die (5)%Z (6)%Z; Die (5)%Z (6)%Z; Die (4)%Z (6)%Z])].
Proof. vm_compute. reflexivity. Qed.
(** core/evaluator/eval_d_roll_comp_test.go [TestEvalDRollComp] *)
Example test_eval_d_roll_comp :
  [evaluated the_eval "2D6=7" [Die (3)%Z (6)%Z; Die (4)%Z (6)%Z];
   evaluated the_eval "2D6=7" [Die (3)%Z (6)%Z; Die (3)%Z (6)%Z];
   evaluated the_eval "2D6=7" [Die (3)%Z (6)%Z; Die (5)%Z (6)%Z];
   evaluated the_eval "2D6<>7" [Die (3)%Z (6)%Z; Die (4)%Z (6)%Z];
   evaluated the_eval "2D6<>7" [Die (3)%Z (6)%Z; Die (3)%Z (6)%Z];
   evaluated the_eval "2D6<>7" [Die (3)%Z (6)%Z; Die (5)%Z (6)%Z];
   evaluated the_eval "2D6<7" [Die (3)%Z (6)%Z; Die (3)%Z (6)%Z];
   evaluated the_eval "2D6<7" [Die (3)%Z (6)%Z; Die (4)%Z (6)%Z];
   evaluated the_eval "2D6>7" [Die (3)%Z (6)%Z; Die (5)%Z (6)%Z];
   evaluated the_eval "2D6>7" [Die (3)%Z (6)%Z; Die (4)%Z (6)%Z];
   evaluated the_eval "2D6<=7" [Die (3)%Z (6)%Z; Die (4)%Z (6)%Z];
   evaluated the_eval "2D6<=7" [Die (3)%Z (6)%Z; Die (5)%Z (6)%Z];
   evaluated the_eval "2D6>=7" [Die (3)%Z (6)%Z; Die (4)%Z (6)%Z];
   evaluated the_eval "2D6>=7" [Die (3)%Z (6)%Z; Die (3)%Z (6)%Z];
   evaluated the_eval "-2D6<-7" [Die (3)%Z (6)%Z; Die (5)%Z (6)%Z];
   evaluated the_eval "-2D6<-7" [Die (3)%Z (6)%Z; Die (4)%Z (6)%Z];
   evaluated the_eval "-2D6>-7" [Die (3)%Z (6)%Z; Die (3)%Z (6)%Z];
   evaluated the_eval "-2D6>-7" [Die (3)%Z (6)%Z; Die (4)%Z (6)%Z];
   evaluated the_eval "-2D6<=-7" [Die (3)%Z (6)%Z; Die (4)%Z (6)%Z];
   evaluated the_eval "-2D6<=-7" [Die (3)%Z (6)%Z; Die (3)%Z (6)%Z];
   evaluated the_eval "-2D6>=-7" [Die (3)%Z (6)%Z; Die (4)%Z (6)%Z];
   evaluated the_eval "-2D6>=-7" [Die (3)%Z (6)%Z; Die (5)%Z (6)%Z]]
  = [Some (OBool true, [Die (3)%Z (6)%Z; Die (4)%Z (6)%Z]);
     Some (OBool false, [Die (3)%Z (6)%Z; Die (3)%Z (6)%Z]);
     Some (OBool false, [Die (3)%Z (6)%Z; Die (5)%Z (6)%Z]);
     Some (OBool false, [Die (3)%Z (6)%Z; Die (4)%Z (6)%Z]);
     Some (OBool true, [Die (3)%Z (6)%Z; Die (3)%Z (6)%Z]);
     Some (OBool true, [Die (3)%Z (6)%Z; Die (5)%Z (6)%Z]);
     Some (OBool true, [Die (3)%Z (6)%Z; Die (3)%Z (6)%Z]);
     Some (OBool false, [Die (3)%Z (6)%Z; Die (4)%Z (6)%Z]);
     Some (OBool true, [Die (3)%Z (6)%Z; Die (5)%Z (6)%Z]);
     Some (OBool false, [Die (3)%Z (6)%Z; Die (4)%Z (6)%Z]);
     Some (OBool true, [Die (3)%Z (6)%Z; Die (4)%Z (6)%Z]);
     Some (OBool false, [Die (3)%Z (6)%Z; Die (5)%Z (6)%Z]);
     Some (OBool true, [Die (3)%Z (6)%Z; Die (4)%Z (6)%Z]);
     Some (OBool false, [Die (3)%Z (6)%Z; Die (3)%Z (6)%Z]);
     Some (OBool true, [Die (3)%Z (6)%Z; Die (5)%Z (6)%Z]);
     Some (OBool false, [Die (3)%Z (6)%Z; Die (4)%Z (6)%Z]);
     Some (OBool true, [Die (3)%Z (6)%Z; Die (3)%Z (6)%Z]);
     Some (OBool false, [Die (3)%Z (6)%Z; Die (4)%Z (6)%Z]);
     Some (OBool true, [Die (3)%Z (6)%Z; Die (4)%Z (6)%Z]);
     Some (OBool false, [Die (3)%Z (6)%Z; Die (3)%Z (6)%Z]);
     Some (OBool true, [Die (3)%Z (6)%Z; Die (4)%Z (6)%Z]);
     Some (OBool false, [Die (3)%Z (6)%Z; Die (5)%Z (6)%Z])].
Proof. vm_compute. reflexivity. Qed.
(** core/evaluator/eval_choice_test.go [TestEvalChoice] *)
Example test_eval_choice :
  [evaluated the_eval "choice[A,B,C,D]どれにしよう" [Die (1)%Z (4)%Z];
   evaluated the_eval "choice[A,B,C,D]どれにしよう" [Die (2)%Z (4)%Z];
   evaluated the_eval "choice[A,B,C,D]どれにしよう" [Die (3)%Z (4)%Z];
   evaluated the_eval "choice[A,B,C,D]どれにしよう" [Die (4)%Z (4)%Z];
   evaluated the_eval "CHOICE[Call of Cthulhu, Sword World, Double Cross]" [Die (1)%Z (3)%Z];
   evaluated the_eval "CHOICE[Call of Cthulhu, Sword World, Double Cross]" [Die (2)%Z (3)%Z];
   evaluated the_eval "CHOICE[Call of Cthulhu, Sword World, Double Cross]" [Die (3)%Z (3)%Z];
   evaluated the_eval "CHOICE[日本語, でも,　だいじょうぶ]" [Die (1)%Z (3)%Z];
   evaluated the_eval "CHOICE[日本語, でも,　だいじょうぶ]" [Die (2)%Z (3)%Z];
   evaluated the_eval "CHOICE[日本語, でも,　だいじょうぶ]" [Die (3)%Z (3)%Z];
   evaluated the_eval "choice[1+2, (3*4), 5d6]" [Die (1)%Z (3)%Z];
   evaluated the_eval "choice[1+2, (3*4), 5d6]" [Die (2)%Z (3)%Z];
   evaluated the_eval "choice[1+2, (3*4), 5d6]" [Die (3)%Z (3)%Z]]
  = [Some (OString "A", [Die (1)%Z (4)%Z]);
     Some (OString "B", [Die (2)%Z (4)%Z]);
     Some (OString "C", [Die (3)%Z (4)%Z]);
     Some (OString "D", [Die (4)%Z (4)%Z]);
     Some (OString "Call of Cthulhu", [Die (1)%Z (3)%Z]);
     Some (OString "Sword World", [Die (2)%Z (3)%Z]);
     Some (OString "Double Cross", [Die (3)%Z (3)%Z]);
     Some (OString "日本語", [Die (1)%Z (3)%Z]);
     Some (OString "でも", [Die (2)%Z (3)%Z]);
     Some (OString "だいじょうぶ", [Die (3)%Z (3)%Z]);
     Some (OString "1+2", [Die (1)%Z (3)%Z]);
     Some (OString "(3*4)", [Die (2)%Z (3)%Z]);
     Some (OString "5d6", [Die (3)%Z (3)%Z])].
Proof. vm_compute. reflexivity. Qed.
(** core/evaluator/eval_b_roll_list_test.go [TestEvalBRollList] *)
Example test_eval_b_roll_list :
  [evaluated the_eval "2b6" [Die (3)%Z (6)%Z; Die (4)%Z (6)%Z];
   evaluated the_eval "2b6" [Die (1)%Z (6)%Z; Die (6)%Z (6)%Z];
   evaluated the_eval "(1*2)b(2+4)" [Die (3)%Z (6)%Z; Die (4)%Z (6)%Z];
   evaluated the_eval "[1...3]b[4...6]" [Die (3)%Z (3)%Z; Die (1)%Z (3)%Z; Die (3)%Z (4)%Z; Die (2)%Z (4)%Z; Die (1)%Z (4)%Z];
   evaluated the_eval "2b6+4b10" [Die (3)%Z (6)%Z; Die (4)%Z (6)%Z; Die (9)%Z (10)%Z; Die (7)%Z (10)%Z; Die (1)%Z (10)%Z; Die (5)%Z (10)%Z];
   evaluated the_eval "2b6+3b8+5b12" [Die (5)%Z (6)%Z; Die (2)%Z (6)%Z; Die (7)%Z (8)%Z; Die (3)%Z (8)%Z; Die (4)%Z (8)%Z; Die (11)%Z (12)%Z; Die (9)%Z (12)%Z; Die (8)%Z (12)%Z; Die (12)%Z (12)%Z; Die (6)%Z (12)%Z]]
  = [Some (OArray [OInt (3)%Z; OInt (4)%Z], [Die (3)%Z (6)%Z; Die (4)%Z (6)%Z]);
     Some (OArray [OInt (1)%Z; OInt (6)%Z], [Die (1)%Z (6)%Z; Die (6)%Z (6)%Z]);
     Some (OArray [OInt (3)%Z; OInt (4)%Z], [Die (3)%Z (6)%Z; Die (4)%Z (6)%Z]);
     Some (OArray [OInt (3)%Z; OInt (2)%Z; OInt (1)%Z], [Die (3)%Z (3)%Z; Die (1)%Z (3)%Z; Die (3)%Z (4)%Z; Die (2)%Z (4)%Z; Die (1)%Z (4)%Z]);
     Some (OArray [OInt (3)%Z; OInt (4)%Z; OInt (9)%Z; OInt (7)%Z; OInt (1)%Z; OInt (5)%Z], [Die (3)%Z (6)%Z; Die (4)%Z (6)%Z; Die (9)%Z (10)%Z; Die (7)%Z (10)%Z; Die (1)%Z (10)%Z; Die (5)%Z (10)%Z]);
     Some (OArray [OInt (5)%Z; OInt (2)%Z; OInt (7)%Z; OInt (3)%Z; OInt (4)%Z; OInt (11)%Z; OInt (9)%Z; OInt (8)%Z; OInt (12)%Z; OInt (6)%Z], [Die (5)%Z (6)%Z; Die (2)%Z (6)%Z; Die (7)%Z (8)%Z; Die (3)%Z (8)%Z; Die (4)%Z (8)%Z; Die (11)%Z (12)%Z; Die (9)%Z (12)%Z; Die (8)%Z (12)%Z; Die (12)%Z (12)%Z; Die (6)%Z (12)%Z])].
Proof. vm_compute. reflexivity. Qed.
(** core/evaluator/eval_b_roll_comp_test.go [TestEvalBRollComp] *)
Example test_eval_b_roll_comp :
  [evaluated the_eval "2b6=3" [Die (3)%Z (6)%Z; Die (4)%Z (6)%Z];
   evaluated the_eval "2b6=3" [Die (2)%Z (6)%Z; Die (1)%Z (6)%Z];
   evaluated the_eval "2b6<>3" [Die (3)%Z (6)%Z; Die (4)%Z (6)%Z];
   evaluated the_eval "2b6<>3" [Die (2)%Z (6)%Z; Die (1)%Z (6)%Z];
   evaluated the_eval "2b6>3" [Die (3)%Z (6)%Z; Die (4)%Z (6)%Z];
   evaluated the_eval "2b6>3" [Die (2)%Z (6)%Z; Die (1)%Z (6)%Z];
   evaluated the_eval "2b6<3" [Die (3)%Z (6)%Z; Die (4)%Z (6)%Z];
   evaluated the_eval "2b6<3" [Die (2)%Z (6)%Z; Die (1)%Z (6)%Z];
   evaluated the_eval "2b6>=3" [Die (3)%Z (6)%Z; Die (4)%Z (6)%Z];
   evaluated the_eval "2b6>=3" [Die (2)%Z (6)%Z; Die (1)%Z (6)%Z];
   evaluated the_eval "2b6<=3" [Die (3)%Z (6)%Z; Die (4)%Z (6)%Z];
   evaluated the_eval "2b6<=3" [Die (2)%Z (6)%Z; Die (1)%Z (6)%Z];
   evaluated the_eval "2b6+4b10>3" [Die (3)%Z (6)%Z; Die (4)%Z (6)%Z; Die (9)%Z (10)%Z; Die (7)%Z (10)%Z; Die (1)%Z (10)%Z; Die (5)%Z (10)%Z];
   evaluated the_eval "2b6+3b8+5b12<5" [Die (5)%Z (6)%Z; Die (2)%Z (6)%Z; Die (7)%Z (8)%Z; Die (3)%Z (8)%Z; Die (4)%Z (8)%Z; Die (11)%Z (12)%Z; Die (9)%Z (12)%Z; Die (8)%Z (12)%Z; Die (12)%Z (12)%Z; Die (6)%Z (12)%Z]]
  = [Some (OBRollComp [OInt (3)%Z; OInt (4)%Z] (1)%Z, [Die (3)%Z (6)%Z; Die (4)%Z (6)%Z]);
     Some (OBRollComp [OInt (2)%Z; OInt (1)%Z] (0)%Z, [Die (2)%Z (6)%Z; Die (1)%Z (6)%Z]);
     Some (OBRollComp [OInt (3)%Z; OInt (4)%Z] (1)%Z, [Die (3)%Z (6)%Z; Die (4)%Z (6)%Z]);
     Some (OBRollComp [OInt (2)%Z; OInt (1)%Z] (2)%Z, [Die (2)%Z (6)%Z; Die (1)%Z (6)%Z]);
     Some (OBRollComp [OInt (3)%Z; OInt (4)%Z] (1)%Z, [Die (3)%Z (6)%Z; Die (4)%Z (6)%Z]);
     Some (OBRollComp [OInt (2)%Z; OInt (1)%Z] (0)%Z, [Die (2)%Z (6)%Z; Die (1)%Z (6)%Z]);
     Some (OBRollComp [OInt (3)%Z; OInt (4)%Z] (0)%Z, [Die (3)%Z (6)%Z; Die (4)%Z (6)%Z]);
     Some (OBRollComp [OInt (2)%Z; OInt (1)%Z] (2)%Z, [Die (2)%Z (6)%Z; Die (1)%Z (6)%Z]);
     Some (OBRollComp [OInt (3)%Z; OInt (4)%Z] (2)%Z, [Die (3)%Z (6)%Z; Die (4)%Z (6)%Z]);
     Some (OBRollComp [OInt (2)%Z; OInt (1)%Z] (0)%Z, [Die (2)%Z (6)%Z; Die (1)%Z (6)%Z]);
     Some (OBRollComp [OInt (3)%Z; OInt (4)%Z] (1)%Z, [Die (3)%Z (6)%Z; Die (4)%Z (6)%Z]);
     Some (OBRollComp [OInt (2)%Z; OInt (1)%Z] (2)%Z, [Die (2)%Z (6)%Z; Die (1)%Z (6)%Z]);
     Some (OBRollComp [OInt (3)%Z; OInt (4)%Z; OInt (9)%Z; OInt (7)%Z; OInt (1)%Z; OInt (5)%Z] (4)%Z, [Die (3)%Z (6)%Z; Die (4)%Z (6)%Z; Die (9)%Z (10)%Z; Die (7)%Z (10)%Z; Die (1)%Z (10)%Z; Die (5)%Z (10)%Z]);
     Some (OBRollComp [OInt (5)%Z; OInt (2)%Z; OInt (7)%Z; OInt (3)%Z; OInt (4)%Z; OInt (11)%Z; OInt (9)%Z; OInt (8)%Z; OInt (12)%Z; OInt (6)%Z] (3)%Z, [Die (5)%Z (6)%Z; Die (2)%Z (6)%Z; Die (7)%Z (8)%Z; Die (3)%Z (8)%Z; Die (4)%Z (8)%Z; Die (11)%Z (12)%Z; Die (9)%Z (12)%Z; Die (8)%Z (12)%Z; Die (12)%Z (12)%Z; Die (6)%Z (12)%Z])].
Proof. vm_compute. reflexivity. Qed.
(** core/evaluator/eval_r_roll_list_test.go [TestEvalRRollList] *)
Example test_eval_r_roll_list :
  [evaluated the_eval "2R6[3]" [Die (3)%Z (6)%Z; Die (1)%Z (6)%Z; Die (2)%Z (6)%Z];
   evaluated the_eval "2R6[3]" [Die (6)%Z (6)%Z; Die (1)%Z (6)%Z; Die (3)%Z (6)%Z; Die (1)%Z (6)%Z];
   evaluated the_eval "12R6[6]" [Die (4)%Z (6)%Z; Die (1)%Z (6)%Z; Die (5)%Z (6)%Z; Die (4)%Z (6)%Z; Die (3)%Z (6)%Z; Die (2)%Z (6)%Z; Die (5)%Z (6)%Z; Die (1)%Z (6)%Z; Die (6)%Z (6)%Z; Die (3)%Z (6)%Z; Die (2)%Z (6)%Z; Die (5)%Z (6)%Z; Die (5)%Z (6)%Z];
   evaluated the_eval "12R6[6]" [Die (6)%Z (6)%Z; Die (1)%Z (6)%Z; Die (2)%Z (6)%Z; Die (2)%Z (6)%Z; Die (2)%Z (6)%Z; Die (1)%Z (6)%Z; Die (5)%Z (6)%Z; Die (5)%Z (6)%Z; Die (1)%Z (6)%Z; Die (5)%Z (6)%Z; Die (2)%Z (6)%Z; Die (6)%Z (6)%Z; Die (4)%Z (6)%Z; Die (5)%Z (6)%Z];
   evaluated the_eval "12R6[6]" [Die (2)%Z (6)%Z; Die (4)%Z (6)%Z; Die (4)%Z (6)%Z; Die (5)%Z (6)%Z; Die (4)%Z (6)%Z; Die (1)%Z (6)%Z; Die (2)%Z (6)%Z; Die (6)%Z (6)%Z; Die (6)%Z (6)%Z; Die (6)%Z (6)%Z; Die (1)%Z (6)%Z; Die (4)%Z (6)%Z; Die (6)%Z (6)%Z; Die (4)%Z (6)%Z; Die (6)%Z (6)%Z; Die (3)%Z (6)%Z; Die (4)%Z (6)%Z];
   evaluated the_eval "12R6[6]" [Die (2)%Z (6)%Z; Die (5)%Z (6)%Z; Die (4)%Z (6)%Z; Die (5)%Z (6)%Z; Die (3)%Z (6)%Z; Die (1)%Z (6)%Z; Die (3)%Z (6)%Z; Die (4)%Z (6)%Z; Die (2)%Z (6)%Z; Die (2)%Z (6)%Z; Die (4)%Z (6)%Z; Die (5)%Z (6)%Z];
   evaluated the_eval "12R6[6]" [Die (5)%Z (6)%Z; Die (3)%Z (6)%Z; Die (5)%Z (6)%Z; Die (3)%Z (6)%Z; Die (1)%Z (6)%Z; Die (1)%Z (6)%Z; Die (6)%Z (6)%Z; Die (3)%Z (6)%Z; Die (2)%Z (6)%Z; Die (2)%Z (6)%Z; Die (5)%Z (6)%Z; Die (5)%Z (6)%Z; Die (6)%Z (6)%Z; Die (4)%Z (6)%Z];
   evaluated the_eval "12R6[6]" [Die (4)%Z (6)%Z; Die (4)%Z (6)%Z; Die (2)%Z (6)%Z; Die (1)%Z (6)%Z; Die (5)%Z (6)%Z; Die (6)%Z (6)%Z; Die (5)%Z (6)%Z; Die (1)%Z (6)%Z; Die (1)%Z (6)%Z; Die (4)%Z (6)%Z; Die (4)%Z (6)%Z; Die (6)%Z (6)%Z; Die (3)%Z (6)%Z; Die (6)%Z (6)%Z; Die (2)%Z (6)%Z];
   evaluated the_eval "12R6[6]" [Die (2)%Z (6)%Z; Die (1)%Z (6)%Z; Die (2)%Z (6)%Z; Die (5)%Z (6)%Z; Die (2)%Z (6)%Z; Die (3)%Z (6)%Z; Die (1)%Z (6)%Z; Die (3)%Z (6)%Z; Die (4)%Z (6)%Z; Die (4)%Z (6)%Z; Die (4)%Z (6)%Z; Die (5)%Z (6)%Z];
   evaluated the_eval "12R6[6]" [Die (1)%Z (6)%Z; Die (2)%Z (6)%Z; Die (3)%Z (6)%Z; Die (4)%Z (6)%Z; Die (1)%Z (6)%Z; Die (1)%Z (6)%Z; Die (2)%Z (6)%Z; Die (3)%Z (6)%Z; Die (6)%Z (6)%Z; Die (4)%Z (6)%Z; Die (1)%Z (6)%Z; Die (4)%Z (6)%Z; Die (2)%Z (6)%Z];
   evaluated the_eval "12R6[6]" [Die (4)%Z (6)%Z; Die (3)%Z (6)%Z; Die (6)%Z (6)%Z; Die (2)%Z (6)%Z; Die (2)%Z (6)%Z; Die (1)%Z (6)%Z; Die (3)%Z (6)%Z; Die (5)%Z (6)%Z; Die (1)%Z (6)%Z; Die (3)%Z (6)%Z; Die (2)%Z (6)%Z; Die (1)%Z (6)%Z; Die (6)%Z (6)%Z; Die (2)%Z (6)%Z];
   evaluated the_eval "12R6[6]" [Die (6)%Z (6)%Z; Die (6)%Z (6)%Z; Die (3)%Z (6)%Z; Die (1)%Z (6)%Z; Die (4)%Z (6)%Z; Die (2)%Z (6)%Z; Die (4)%Z (6)%Z; Die (5)%Z (6)%Z; Die (4)%Z (6)%Z; Die (3)%Z (6)%Z; Die (6)%Z (6)%Z; Die (6)%Z (6)%Z; Die (4)%Z (6)%Z; Die (4)%Z (6)%Z; Die (3)%Z (6)%Z; Die (4)%Z (6)%Z];
   evaluated the_eval "2R4+2R6[4]" [Die (4)%Z (4)%Z; Die (3)%Z (4)%Z; Die (3)%Z (6)%Z; Die (5)%Z (6)%Z; Die (1)%Z (4)%Z; Die (2)%Z (6)%Z]]
  = [Some (OArray [OArray [OInt (3)%Z; OInt (1)%Z]; OArray [OInt (2)%Z]], [Die (3)%Z (6)%Z; Die (1)%Z (6)%Z; Die (2)%Z (6)%Z]);
     Some (OArray [OArray [OInt (6)%Z; OInt (1)%Z]; OArray [OInt (3)%Z]; OArray [OInt (1)%Z]], [Die (6)%Z (6)%Z; Die (1)%Z (6)%Z; Die (3)%Z (6)%Z; Die (1)%Z (6)%Z]);
     Some (OArray [OArray [OInt (4)%Z; OInt (1)%Z; OInt (5)%Z; OInt (4)%Z; OInt (3)%Z; OInt (2)%Z; OInt (5)%Z; OInt (1)%Z; OInt (6)%Z; OInt (3)%Z; OInt (2)%Z; OInt (5)%Z]; OArray [OInt (5)%Z]], [Die (4)%Z (6)%Z; Die (1)%Z (6)%Z; Die (5)%Z (6)%Z; Die (4)%Z (6)%Z; Die (3)%Z (6)%Z; Die (2)%Z (6)%Z; Die (5)%Z (6)%Z; Die (1)%Z (6)%Z; Die (6)%Z (6)%Z; Die (3)%Z (6)%Z; Die (2)%Z (6)%Z; Die (5)%Z (6)%Z; Die (5)%Z (6)%Z]);
     Some (OArray [OArray [OInt (6)%Z; OInt (1)%Z; OInt (2)%Z; OInt (2)%Z; OInt (2)%Z; OInt (1)%Z; OInt (5)%Z; OInt (5)%Z; OInt (1)%Z; OInt (5)%Z; OInt (2)%Z; OInt (6)%Z]; OArray [OInt (4)%Z; OInt (5)%Z]], [Die (6)%Z (6)%Z; Die (1)%Z (6)%Z; Die (2)%Z (6)%Z; Die (2)%Z (6)%Z; Die (2)%Z (6)%Z; Die (1)%Z (6)%Z; Die (5)%Z (6)%Z; Die (5)%Z (6)%Z; Die (1)%Z (6)%Z; Die (5)%Z (6)%Z; Die (2)%Z (6)%Z; Die (6)%Z (6)%Z; Die (4)%Z (6)%Z; Die (5)%Z (6)%Z]);
     Some (OArray [OArray [OInt (2)%Z; OInt (4)%Z; OInt (4)%Z; OInt (5)%Z; OInt (4)%Z; OInt (1)%Z; OInt (2)%Z; OInt (6)%Z; OInt (6)%Z; OInt (6)%Z; OInt (1)%Z; OInt (4)%Z]; OArray [OInt (6)%Z; OInt (4)%Z; OInt (6)%Z]; OArray [OInt (3)%Z; OInt (4)%Z]], [Die (2)%Z (6)%Z; Die (4)%Z (6)%Z; Die (4)%Z (6)%Z; Die (5)%Z (6)%Z; Die (4)%Z (6)%Z; Die (1)%Z (6)%Z; Die (2)%Z (6)%Z; Die (6)%Z (6)%Z; Die (6)%Z (6)%Z; Die (6)%Z (6)%Z; Die (1)%Z (6)%Z; Die (4)%Z (6)%Z; Die (6)%Z (6)%Z; Die (4)%Z (6)%Z; Die (6)%Z (6)%Z; Die (3)%Z (6)%Z; Die (4)%Z (6)%Z]);
     Some (OArray [OArray [OInt (2)%Z; OInt (5)%Z; OInt (4)%Z; OInt (5)%Z; OInt (3)%Z; OInt (1)%Z; OInt (3)%Z; OInt (4)%Z; OInt (2)%Z; OInt (2)%Z; OInt (4)%Z; OInt (5)%Z]], [Die (2)%Z (6)%Z; Die (5)%Z (6)%Z; Die (4)%Z (6)%Z; Die (5)%Z (6)%Z; Die (3)%Z (6)%Z; Die (1)%Z (6)%Z; Die (3)%Z (6)%Z; Die (4)%Z (6)%Z; Die (2)%Z (6)%Z; Die (2)%Z (6)%Z; Die (4)%Z (6)%Z; Die (5)%Z (6)%Z]);
     Some (OArray [OArray [OInt (5)%Z; OInt (3)%Z; OInt (5)%Z; OInt (3)%Z; OInt (1)%Z; OInt (1)%Z; OInt (6)%Z; OInt (3)%Z; OInt (2)%Z; OInt (2)%Z; OInt (5)%Z; OInt (5)%Z]; OArray [OInt (6)%Z]; OArray [OInt (4)%Z]], [Die (5)%Z (6)%Z; Die (3)%Z (6)%Z; Die (5)%Z (6)%Z; Die (3)%Z (6)%Z; Die (1)%Z (6)%Z; Die (1)%Z (6)%Z; Die (6)%Z (6)%Z; Die (3)%Z (6)%Z; Die (2)%Z (6)%Z; Die (2)%Z (6)%Z; Die (5)%Z (6)%Z; Die (5)%Z (6)%Z; Die (6)%Z (6)%Z; Die (4)%Z (6)%Z]);
     Some (OArray [OArray [OInt (4)%Z; OInt (4)%Z; OInt (2)%Z; OInt (1)%Z; OInt (5)%Z; OInt (6)%Z; OInt (5)%Z; OInt (1)%Z; OInt (1)%Z; OInt (4)%Z; OInt (4)%Z; OInt (6)%Z]; OArray [OInt (3)%Z; OInt (6)%Z]; OArray [OInt (2)%Z]], [Die (4)%Z (6)%Z; Die (4)%Z (6)%Z; Die (2)%Z (6)%Z; Die (1)%Z (6)%Z; Die (5)%Z (6)%Z; Die (6)%Z (6)%Z; Die (5)%Z (6)%Z; Die (1)%Z (6)%Z; Die (1)%Z (6)%Z; Die (4)%Z (6)%Z; Die (4)%Z (6)%Z; Die (6)%Z (6)%Z; Die (3)%Z (6)%Z; Die (6)%Z (6)%Z; Die (2)%Z (6)%Z]);
     Some (OArray [OArray [OInt (2)%Z; OInt (1)%Z; OInt (2)%Z; OInt (5)%Z; OInt (2)%Z; OInt (3)%Z; OInt (1)%Z; OInt (3)%Z; OInt (4)%Z; OInt (4)%Z; OInt (4)%Z; OInt (5)%Z]], [Die (2)%Z (6)%Z; Die (1)%Z (6)%Z; Die (2)%Z (6)%Z; Die (5)%Z (6)%Z; Die (2)%Z (6)%Z; Die (3)%Z (6)%Z; Die (1)%Z (6)%Z; Die (3)%Z (6)%Z; Die (4)%Z (6)%Z; Die (4)%Z (6)%Z; Die (4)%Z (6)%Z; Die (5)%Z (6)%Z]);
     Some (OArray [OArray [OInt (1)%Z; OInt (2)%Z; OInt (3)%Z; OInt (4)%Z; OInt (1)%Z; OInt (1)%Z; OInt (2)%Z; OInt (3)%Z; OInt (6)%Z; OInt (4)%Z; OInt (1)%Z; OInt (4)%Z]; OArray [OInt (2)%Z]], [Die (1)%Z (6)%Z; Die (2)%Z (6)%Z; Die (3)%Z (6)%Z; Die (4)%Z (6)%Z; Die (1)%Z (6)%Z; Die (1)%Z (6)%Z; Die (2)%Z (6)%Z; Die (3)%Z (6)%Z; Die (6)%Z (6)%Z; Die (4)%Z (6)%Z; Die (1)%Z (6)%Z; Die (4)%Z (6)%Z; Die (2)%Z (6)%Z]);
     Some (OArray [OArray [OInt (4)%Z; OInt (3)%Z; OInt (6)%Z; OInt (2)%Z; OInt (2)%Z; OInt (1)%Z; OInt (3)%Z; OInt (5)%Z; OInt (1)%Z; OInt (3)%Z; OInt (2)%Z; OInt (1)%Z]; OArray [OInt (6)%Z]; OArray [OInt (2)%Z]], [Die (4)%Z (6)%Z; Die (3)%Z (6)%Z; Die (6)%Z (6)%Z; Die (2)%Z (6)%Z; Die (2)%Z (6)%Z; Die (1)%Z (6)%Z; Die (3)%Z (6)%Z; Die (5)%Z (6)%Z; Die (1)%Z (6)%Z; Die (3)%Z (6)%Z; Die (2)%Z (6)%Z; Die (1)%Z (6)%Z; Die (6)%Z (6)%Z; Die (2)%Z (6)%Z]);
     Some (OArray [OArray [OInt (6)%Z; OInt (6)%Z; OInt (3)%Z; OInt (1)%Z; OInt (4)%Z; OInt (2)%Z; OInt (4)%Z; OInt (5)%Z; OInt (4)%Z; OInt (3)%Z; OInt (6)%Z; OInt (6)%Z]; OArray [OInt (4)%Z; OInt (4)%Z; OInt (3)%Z; OInt (4)%Z]], [Die (6)%Z (6)%Z; Die (6)%Z (6)%Z; Die (3)%Z (6)%Z; Die (1)%Z (6)%Z; Die (4)%Z (6)%Z; Die (2)%Z (6)%Z; Die (4)%Z (6)%Z; Die (5)%Z (6)%Z; Die (4)%Z (6)%Z; Die (3)%Z (6)%Z; Die (6)%Z (6)%Z; Die (6)%Z (6)%Z; Die (4)%Z (6)%Z; Die (4)%Z (6)%Z; Die (3)%Z (6)%Z; Die (4)%Z (6)%Z]);
     Some (OArray [OArray [OInt (4)%Z; OInt (3)%Z]; OArray [OInt (3)%Z; OInt (5)%Z]; OArray [OInt (1)%Z]; OArray [OInt (2)%Z]], [Die (4)%Z (4)%Z; Die (3)%Z (4)%Z; Die (3)%Z (6)%Z; Die (5)%Z (6)%Z; Die (1)%Z (4)%Z; Die (2)%Z (6)%Z])].
Proof. vm_compute. reflexivity. Qed.
(** core/evaluator/eval_r_roll_list_test.go [TestEvalRRollList], the rows with [err: true] *)
Example test_eval_r_roll_list_err :
  [unevaluated "2R6"]
  = [true].
Proof. vm_compute. reflexivity. Qed.
(** core/evaluator/eval_r_roll_comp_test.go [TestEvalRRollComp] *)
Example test_eval_r_roll_comp :
  [evaluated the_eval "2R6[3]=3" [Die (3)%Z (6)%Z; Die (1)%Z (6)%Z; Die (2)%Z (6)%Z];
   evaluated the_eval "2R6[3]=3" [Die (6)%Z (6)%Z; Die (1)%Z (6)%Z; Die (3)%Z (6)%Z; Die (1)%Z (6)%Z];
   evaluated the_eval "2R6[3]<>3" [Die (3)%Z (6)%Z; Die (1)%Z (6)%Z; Die (2)%Z (6)%Z];
   evaluated the_eval "2R6[3]<>3" [Die (6)%Z (6)%Z; Die (1)%Z (6)%Z; Die (3)%Z (6)%Z; Die (1)%Z (6)%Z];
   evaluated the_eval "2R6[3]>3" [Die (3)%Z (6)%Z; Die (1)%Z (6)%Z; Die (2)%Z (6)%Z];
   evaluated the_eval "2R6[3]>3" [Die (6)%Z (6)%Z; Die (1)%Z (6)%Z; Die (3)%Z (6)%Z; Die (1)%Z (6)%Z];
   evaluated the_eval "2R6[3]<3" [Die (3)%Z (6)%Z; Die (1)%Z (6)%Z; Die (2)%Z (6)%Z];
   evaluated the_eval "2R6[3]<3" [Die (6)%Z (6)%Z; Die (1)%Z (6)%Z; Die (3)%Z (6)%Z; Die (1)%Z (6)%Z];
   evaluated the_eval "2R6[3]>=3" [Die (3)%Z (6)%Z; Die (1)%Z (6)%Z; Die (2)%Z (6)%Z];
   evaluated the_eval "2R6[3]>=3" [Die (6)%Z (6)%Z; Die (1)%Z (6)%Z; Die (3)%Z (6)%Z; Die (1)%Z (6)%Z];
   evaluated the_eval "2R6[3]<=3" [Die (3)%Z (6)%Z; Die (1)%Z (6)%Z; Die (2)%Z (6)%Z];
   evaluated the_eval "2R6[3]<=3" [Die (6)%Z (6)%Z; Die (1)%Z (6)%Z; Die (3)%Z (6)%Z; Die (1)%Z (6)%Z];
   evaluated the_eval "2R6[3]>=4" [Die (6)%Z (6)%Z; Die (1)%Z (6)%Z; Die (3)%Z (6)%Z; Die (1)%Z (6)%Z];
   evaluated the_eval "2R4+2R6[4]>=4" [Die (4)%Z (4)%Z; Die (3)%Z (4)%Z; Die (3)%Z (6)%Z; Die (5)%Z (6)%Z; Die (1)%Z (4)%Z; Die (2)%Z (6)%Z]]
  = [Some (ORRollComp [OArray [OInt (3)%Z; OInt (1)%Z]; OArray [OInt (2)%Z]] (1)%Z, [Die (3)%Z (6)%Z; Die (1)%Z (6)%Z; Die (2)%Z (6)%Z]);
     Some (ORRollComp [OArray [OInt (6)%Z; OInt (1)%Z]; OArray [OInt (3)%Z]; OArray [OInt (1)%Z]] (1)%Z, [Die (6)%Z (6)%Z; Die (1)%Z (6)%Z; Die (3)%Z (6)%Z; Die (1)%Z (6)%Z]);
     Some (ORRollComp [OArray [OInt (3)%Z; OInt (1)%Z]; OArray [OInt (2)%Z]] (2)%Z, [Die (3)%Z (6)%Z; Die (1)%Z (6)%Z; Die (2)%Z (6)%Z]);
     Some (ORRollComp [OArray [OInt (6)%Z; OInt (1)%Z]; OArray [OInt (3)%Z]; OArray [OInt (1)%Z]] (3)%Z, [Die (6)%Z (6)%Z; Die (1)%Z (6)%Z; Die (3)%Z (6)%Z; Die (1)%Z (6)%Z]);
     Some (ORRollComp [OArray [OInt (3)%Z; OInt (1)%Z]; OArray [OInt (2)%Z]] (0)%Z, [Die (3)%Z (6)%Z; Die (1)%Z (6)%Z; Die (2)%Z (6)%Z]);
     Some (ORRollComp [OArray [OInt (6)%Z; OInt (1)%Z]; OArray [OInt (3)%Z]; OArray [OInt (1)%Z]] (1)%Z, [Die (6)%Z (6)%Z; Die (1)%Z (6)%Z; Die (3)%Z (6)%Z; Die (1)%Z (6)%Z]);
     Some (ORRollComp [OArray [OInt (3)%Z; OInt (1)%Z]; OArray [OInt (2)%Z]] (2)%Z, [Die (3)%Z (6)%Z; Die (1)%Z (6)%Z; Die (2)%Z (6)%Z]);
     Some (ORRollComp [OArray [OInt (6)%Z; OInt (1)%Z]; OArray [OInt (3)%Z]; OArray [OInt (1)%Z]] (2)%Z, [Die (6)%Z (6)%Z; Die (1)%Z (6)%Z; Die (3)%Z (6)%Z; Die (1)%Z (6)%Z]);
     Some (ORRollComp [OArray [OInt (3)%Z; OInt (1)%Z]; OArray [OInt (2)%Z]] (1)%Z, [Die (3)%Z (6)%Z; Die (1)%Z (6)%Z; Die (2)%Z (6)%Z]);
     Some (ORRollComp [OArray [OInt (6)%Z; OInt (1)%Z]; OArray [OInt (3)%Z]; OArray [OInt (1)%Z]] (2)%Z, [Die (6)%Z (6)%Z; Die (1)%Z (6)%Z; Die (3)%Z (6)%Z; Die (1)%Z (6)%Z]);
     Some (ORRollComp [OArray [OInt (3)%Z; OInt (1)%Z]; OArray [OInt (2)%Z]] (3)%Z, [Die (3)%Z (6)%Z; Die (1)%Z (6)%Z; Die (2)%Z (6)%Z]);
     Some (ORRollComp [OArray [OInt (6)%Z; OInt (1)%Z]; OArray [OInt (3)%Z]; OArray [OInt (1)%Z]] (3)%Z, [Die (6)%Z (6)%Z; Die (1)%Z (6)%Z; Die (3)%Z (6)%Z; Die (1)%Z (6)%Z]);
     Some (ORRollComp [OArray [OInt (6)%Z; OInt (1)%Z]; OArray [OInt (3)%Z]; OArray [OInt (1)%Z]] (1)%Z, [Die (6)%Z (6)%Z; Die (1)%Z (6)%Z; Die (3)%Z (6)%Z; Die (1)%Z (6)%Z]);
     Some (ORRollComp [OArray [OInt (4)%Z; OInt (3)%Z]; OArray [OInt (3)%Z; OInt (5)%Z]; OArray [OInt (1)%Z]; OArray [OInt (2)%Z]] (2)%Z, [Die (4)%Z (4)%Z; Die (3)%Z (4)%Z; Die (3)%Z (6)%Z; Die (5)%Z (6)%Z; Die (1)%Z (4)%Z; Die (2)%Z (6)%Z])].
Proof. vm_compute. reflexivity. Qed.
(** The groups, their sums, the maximum and the sum of the values, the number of successes *)
Definition max_value (groups : list obj) (m : Z) : option Z := match sum_of_groups groups with Ok l => option_map (fun v => wrap64 (v + m)) (max_integer (map OInt l)) | _ => None end.
Definition sum_of_values (groups : list obj) (m : Z) : option Z := match sum_of_groups groups with Ok l => option_map (fun v => wrap64 (v + m)) (sum_of_integers (map OInt l)) | _ => None end.
Definition u_evaluated (input : string) (ds : list die) :=
  match evaluated the_eval input ds with
  | Some (OURollExpr g m, l) => Some (g, sum_of_groups g, max_value g m, sum_of_values g m, 0%Z, l)
  | Some (OURollComp g m n, l) => Some (g, sum_of_groups g, None, None, n, l)
  | _ => None
  end.
(** core/evaluator/eval_u_roll_expr_test.go [TestEvalURollExpr] *)
Example test_eval_u_roll_expr :
  [u_evaluated "3u6[6]" [Die (6)%Z (6)%Z; Die (5)%Z (6)%Z; Die (6)%Z (6)%Z; Die (1)%Z (6)%Z; Die (6)%Z (6)%Z; Die (1)%Z (6)%Z];
   u_evaluated "(1+2)u6[6]" [Die (6)%Z (6)%Z; Die (5)%Z (6)%Z; Die (6)%Z (6)%Z; Die (1)%Z (6)%Z; Die (6)%Z (6)%Z; Die (1)%Z (6)%Z];
   u_evaluated "3u(2*3)[6]" [Die (6)%Z (6)%Z; Die (5)%Z (6)%Z; Die (6)%Z (6)%Z; Die (1)%Z (6)%Z; Die (6)%Z (6)%Z; Die (1)%Z (6)%Z];
   u_evaluated "3u6[12/2]" [Die (6)%Z (6)%Z; Die (5)%Z (6)%Z; Die (6)%Z (6)%Z; Die (1)%Z (6)%Z; Die (6)%Z (6)%Z; Die (1)%Z (6)%Z];
   u_evaluated "6U6[4]" [Die (2)%Z (6)%Z; Die (5)%Z (6)%Z; Die (2)%Z (6)%Z; Die (1)%Z (6)%Z; Die (4)%Z (6)%Z; Die (6)%Z (6)%Z; Die (1)%Z (6)%Z; Die (5)%Z (6)%Z; Die (3)%Z (6)%Z; Die (3)%Z (6)%Z];
   u_evaluated "6U6[4]" [Die (4)%Z (6)%Z; Die (3)%Z (6)%Z; Die (1)%Z (6)%Z; Die (1)%Z (6)%Z; Die (4)%Z (6)%Z; Die (6)%Z (6)%Z; Die (6)%Z (6)%Z; Die (4)%Z (6)%Z; Die (3)%Z (6)%Z; Die (1)%Z (6)%Z; Die (6)%Z (6)%Z; Die (5)%Z (6)%Z; Die (3)%Z (6)%Z];
   u_evaluated "1U100[96]+3" [Die (98)%Z (100)%Z; Die (57)%Z (100)%Z];
   u_evaluated "3u6[5]+10" [Die (1)%Z (6)%Z; Die (3)%Z (6)%Z; Die (5)%Z (6)%Z; Die (1)%Z (6)%Z];
   u_evaluated "3u6[5]-10" [Die (1)%Z (6)%Z; Die (3)%Z (6)%Z; Die (5)%Z (6)%Z; Die (1)%Z (6)%Z];
   u_evaluated "3u6+5u6[6]" [Die (3)%Z (6)%Z; Die (5)%Z (6)%Z; Die (3)%Z (6)%Z; Die (6)%Z (6)%Z; Die (4)%Z (6)%Z; Die (1)%Z (6)%Z; Die (6)%Z (6)%Z; Die (6)%Z (6)%Z; Die (3)%Z (6)%Z; Die (5)%Z (6)%Z; Die (1)%Z (6)%Z];
   u_evaluated "(5+6)u10[10]+5" [Die (3)%Z (10)%Z; Die (2)%Z (10)%Z; Die (7)%Z (10)%Z; Die (4)%Z (10)%Z; Die (7)%Z (10)%Z; Die (5)%Z (10)%Z; Die (4)%Z (10)%Z; Die (4)%Z (10)%Z; Die (7)%Z (10)%Z; Die (10)%Z (10)%Z; Die (6)%Z (10)%Z; Die (1)%Z (10)%Z]]
  = [Some ([OArray [OInt (6)%Z; OInt (5)%Z]; OArray [OInt (6)%Z; OInt (1)%Z]; OArray [OInt (6)%Z; OInt (1)%Z]], Ok [(11)%Z; (7)%Z; (7)%Z], Some (11)%Z, Some (25)%Z, 0%Z, [Die (6)%Z (6)%Z; Die (5)%Z (6)%Z; Die (6)%Z (6)%Z; Die (1)%Z (6)%Z; Die (6)%Z (6)%Z; Die (1)%Z (6)%Z]);
     Some ([OArray [OInt (6)%Z; OInt (5)%Z]; OArray [OInt (6)%Z; OInt (1)%Z]; OArray [OInt (6)%Z; OInt (1)%Z]], Ok [(11)%Z; (7)%Z; (7)%Z], Some (11)%Z, Some (25)%Z, 0%Z, [Die (6)%Z (6)%Z; Die (5)%Z (6)%Z; Die (6)%Z (6)%Z; Die (1)%Z (6)%Z; Die (6)%Z (6)%Z; Die (1)%Z (6)%Z]);
     Some ([OArray [OInt (6)%Z; OInt (5)%Z]; OArray [OInt (6)%Z; OInt (1)%Z]; OArray [OInt (6)%Z; OInt (1)%Z]], Ok [(11)%Z; (7)%Z; (7)%Z], Some (11)%Z, Some (25)%Z, 0%Z, [Die (6)%Z (6)%Z; Die (5)%Z (6)%Z; Die (6)%Z (6)%Z; Die (1)%Z (6)%Z; Die (6)%Z (6)%Z; Die (1)%Z (6)%Z]);
     Some ([OArray [OInt (6)%Z; OInt (5)%Z]; OArray [OInt (6)%Z; OInt (1)%Z]; OArray [OInt (6)%Z; OInt (1)%Z]], Ok [(11)%Z; (7)%Z; (7)%Z], Some (11)%Z, Some (25)%Z, 0%Z, [Die (6)%Z (6)%Z; Die (5)%Z (6)%Z; Die (6)%Z (6)%Z; Die (1)%Z (6)%Z; Die (6)%Z (6)%Z; Die (1)%Z (6)%Z]);
     Some ([OArray [OInt (2)%Z]; OArray [OInt (5)%Z; OInt (2)%Z]; OArray [OInt (1)%Z]; OArray [OInt (4)%Z; OInt (6)%Z; OInt (1)%Z]; OArray [OInt (5)%Z; OInt (3)%Z]; OArray [OInt (3)%Z]], Ok [(2)%Z; (7)%Z; (1)%Z; (11)%Z; (8)%Z; (3)%Z], Some (11)%Z, Some (32)%Z, 0%Z, [Die (2)%Z (6)%Z; Die (5)%Z (6)%Z; Die (2)%Z (6)%Z; Die (1)%Z (6)%Z; Die (4)%Z (6)%Z; Die (6)%Z (6)%Z; Die (1)%Z (6)%Z; Die (5)%Z (6)%Z; Die (3)%Z (6)%Z; Die (3)%Z (6)%Z]);
     Some ([OArray [OInt (4)%Z; OInt (3)%Z]; OArray [OInt (1)%Z]; OArray [OInt (1)%Z]; OArray [OInt (4)%Z; OInt (6)%Z; OInt (6)%Z; OInt (4)%Z; OInt (3)%Z]; OArray [OInt (1)%Z]; OArray [OInt (6)%Z; OInt (5)%Z; OInt (3)%Z]], Ok [(7)%Z; (1)%Z; (1)%Z; (23)%Z; (1)%Z; (14)%Z], Some (23)%Z, Some (47)%Z, 0%Z, [Die (4)%Z (6)%Z; Die (3)%Z (6)%Z; Die (1)%Z (6)%Z; Die (1)%Z (6)%Z; Die (4)%Z (6)%Z; Die (6)%Z (6)%Z; Die (6)%Z (6)%Z; Die (4)%Z (6)%Z; Die (3)%Z (6)%Z; Die (1)%Z (6)%Z; Die (6)%Z (6)%Z; Die (5)%Z (6)%Z; Die (3)%Z (6)%Z]);
     Some ([OArray [OInt (98)%Z; OInt (57)%Z]], Ok [(155)%Z], Some (158)%Z, Some (158)%Z, 0%Z, [Die (98)%Z (100)%Z; Die (57)%Z (100)%Z]);
     Some ([OArray [OInt (1)%Z]; OArray [OInt (3)%Z]; OArray [OInt (5)%Z; OInt (1)%Z]], Ok [(1)%Z; (3)%Z; (6)%Z], Some (16)%Z, Some (20)%Z, 0%Z, [Die (1)%Z (6)%Z; Die (3)%Z (6)%Z; Die (5)%Z (6)%Z; Die (1)%Z (6)%Z]);
     Some ([OArray [OInt (1)%Z]; OArray [OInt (3)%Z]; OArray [OInt (5)%Z; OInt (1)%Z]], Ok [(1)%Z; (3)%Z; (6)%Z], Some (-4)%Z, Some (0)%Z, 0%Z, [Die (1)%Z (6)%Z; Die (3)%Z (6)%Z; Die (5)%Z (6)%Z; Die (1)%Z (6)%Z]);
     Some ([OArray [OInt (3)%Z]; OArray [OInt (5)%Z]; OArray [OInt (3)%Z]; OArray [OInt (6)%Z; OInt (4)%Z]; OArray [OInt (1)%Z]; OArray [OInt (6)%Z; OInt (6)%Z; OInt (3)%Z]; OArray [OInt (5)%Z]; OArray [OInt (1)%Z]], Ok [(3)%Z; (5)%Z; (3)%Z; (10)%Z; (1)%Z; (15)%Z; (5)%Z; (1)%Z], Some (15)%Z, Some (43)%Z, 0%Z, [Die (3)%Z (6)%Z; Die (5)%Z (6)%Z; Die (3)%Z (6)%Z; Die (6)%Z (6)%Z; Die (4)%Z (6)%Z; Die (1)%Z (6)%Z; Die (6)%Z (6)%Z; Die (6)%Z (6)%Z; Die (3)%Z (6)%Z; Die (5)%Z (6)%Z; Die (1)%Z (6)%Z]);
     Some ([OArray [OInt (3)%Z]; OArray [OInt (2)%Z]; OArray [OInt (7)%Z]; OArray [OInt (4)%Z]; OArray [OInt (7)%Z]; OArray [OInt (5)%Z]; OArray [OInt (4)%Z]; OArray [OInt (4)%Z]; OArray [OInt (7)%Z]; OArray [OInt (10)%Z; OInt (6)%Z]; OArray [OInt (1)%Z]], Ok [(3)%Z; (2)%Z; (7)%Z; (4)%Z; (7)%Z; (5)%Z; (4)%Z; (4)%Z; (7)%Z; (16)%Z; (1)%Z], Some (21)%Z, Some (65)%Z, 0%Z, [Die (3)%Z (10)%Z; Die (2)%Z (10)%Z; Die (7)%Z (10)%Z; Die (4)%Z (10)%Z; Die (7)%Z (10)%Z; Die (5)%Z (10)%Z; Die (4)%Z (10)%Z; Die (4)%Z (10)%Z; Die (7)%Z (10)%Z; Die (10)%Z (10)%Z; Die (6)%Z (10)%Z; Die (1)%Z (10)%Z])].
Proof. vm_compute. reflexivity. Qed.
(** core/evaluator/eval_u_roll_expr_test.go [TestEvalURollExpr], the rows with [err: true] *)
Example test_eval_u_roll_expr_err :
  [unevaluated "3U6"]
  = [true].
Proof. vm_compute. reflexivity. Qed.
(** core/evaluator/eval_u_roll_comp_test.go [TestEvalURollComp] *)
Example test_eval_u_roll_comp :
  [u_evaluated "3u6[6]=7" [Die (6)%Z (6)%Z; Die (5)%Z (6)%Z; Die (6)%Z (6)%Z; Die (1)%Z (6)%Z; Die (5)%Z (6)%Z];
   u_evaluated "3u6[6]=7" [Die (6)%Z (6)%Z; Die (5)%Z (6)%Z; Die (6)%Z (6)%Z; Die (1)%Z (6)%Z; Die (6)%Z (6)%Z; Die (1)%Z (6)%Z];
   u_evaluated "3u6[6]-4=7" [Die (6)%Z (6)%Z; Die (5)%Z (6)%Z; Die (6)%Z (6)%Z; Die (1)%Z (6)%Z; Die (5)%Z (6)%Z];
   u_evaluated "3u6[6]<>7" [Die (6)%Z (6)%Z; Die (5)%Z (6)%Z; Die (6)%Z (6)%Z; Die (1)%Z (6)%Z; Die (5)%Z (6)%Z];
   u_evaluated "3u6[6]<>7" [Die (6)%Z (6)%Z; Die (5)%Z (6)%Z; Die (6)%Z (6)%Z; Die (1)%Z (6)%Z; Die (6)%Z (6)%Z; Die (1)%Z (6)%Z];
   u_evaluated "3u6[6]+1<>7" [Die (6)%Z (6)%Z; Die (5)%Z (6)%Z; Die (6)%Z (6)%Z; Die (1)%Z (6)%Z; Die (5)%Z (6)%Z];
   u_evaluated "3u6[6]>6" [Die (6)%Z (6)%Z; Die (5)%Z (6)%Z; Die (6)%Z (6)%Z; Die (1)%Z (6)%Z; Die (5)%Z (6)%Z];
   u_evaluated "3u6[6]>6" [Die (6)%Z (6)%Z; Die (5)%Z (6)%Z; Die (6)%Z (6)%Z; Die (1)%Z (6)%Z; Die (6)%Z (6)%Z; Die (1)%Z (6)%Z];
   u_evaluated "3u6[6]-1>6" [Die (6)%Z (6)%Z; Die (5)%Z (6)%Z; Die (6)%Z (6)%Z; Die (1)%Z (6)%Z; Die (5)%Z (6)%Z];
   u_evaluated "3u6[6]<6" [Die (6)%Z (6)%Z; Die (5)%Z (6)%Z; Die (6)%Z (6)%Z; Die (1)%Z (6)%Z; Die (5)%Z (6)%Z];
   u_evaluated "3u6[6]<6" [Die (6)%Z (6)%Z; Die (5)%Z (6)%Z; Die (6)%Z (6)%Z; Die (1)%Z (6)%Z; Die (6)%Z (6)%Z; Die (1)%Z (6)%Z];
   u_evaluated "3u6[6]-2<6" [Die (6)%Z (6)%Z; Die (5)%Z (6)%Z; Die (6)%Z (6)%Z; Die (1)%Z (6)%Z; Die (5)%Z (6)%Z];
   u_evaluated "3u6[6]>=7" [Die (6)%Z (6)%Z; Die (5)%Z (6)%Z; Die (6)%Z (6)%Z; Die (1)%Z (6)%Z; Die (5)%Z (6)%Z];
   u_evaluated "3u6[6]>=7" [Die (6)%Z (6)%Z; Die (5)%Z (6)%Z; Die (6)%Z (6)%Z; Die (1)%Z (6)%Z; Die (6)%Z (6)%Z; Die (1)%Z (6)%Z];
   u_evaluated "3u6[6]-1>=7" [Die (6)%Z (6)%Z; Die (5)%Z (6)%Z; Die (6)%Z (6)%Z; Die (1)%Z (6)%Z; Die (5)%Z (6)%Z];
   u_evaluated "3u6[6]<=7" [Die (6)%Z (6)%Z; Die (5)%Z (6)%Z; Die (6)%Z (6)%Z; Die (1)%Z (6)%Z; Die (5)%Z (6)%Z];
   u_evaluated "3u6[6]<=7" [Die (6)%Z (6)%Z; Die (5)%Z (6)%Z; Die (6)%Z (6)%Z; Die (1)%Z (6)%Z; Die (6)%Z (6)%Z; Die (1)%Z (6)%Z];
   u_evaluated "3u6[6]-4<=7" [Die (6)%Z (6)%Z; Die (5)%Z (6)%Z; Die (6)%Z (6)%Z; Die (1)%Z (6)%Z; Die (5)%Z (6)%Z];
   u_evaluated "3u6+5u6[6]>=7" [Die (3)%Z (6)%Z; Die (5)%Z (6)%Z; Die (3)%Z (6)%Z; Die (6)%Z (6)%Z; Die (4)%Z (6)%Z; Die (1)%Z (6)%Z; Die (6)%Z (6)%Z; Die (6)%Z (6)%Z; Die (3)%Z (6)%Z; Die (5)%Z (6)%Z; Die (1)%Z (6)%Z];
   u_evaluated "(5+6)u10[10]+5>=8" [Die (3)%Z (10)%Z; Die (2)%Z (10)%Z; Die (7)%Z (10)%Z; Die (4)%Z (10)%Z; Die (7)%Z (10)%Z; Die (5)%Z (10)%Z; Die (4)%Z (10)%Z; Die (4)%Z (10)%Z; Die (7)%Z (10)%Z; Die (10)%Z (10)%Z; Die (6)%Z (10)%Z; Die (1)%Z (10)%Z]]
  = [Some ([OArray [OInt (6)%Z; OInt (5)%Z]; OArray [OInt (6)%Z; OInt (1)%Z]; OArray [OInt (5)%Z]], Ok [(11)%Z; (7)%Z; (5)%Z], None, None, (1)%Z, [Die (6)%Z (6)%Z; Die (5)%Z (6)%Z; Die (6)%Z (6)%Z; Die (1)%Z (6)%Z; Die (5)%Z (6)%Z]);
     Some ([OArray [OInt (6)%Z; OInt (5)%Z]; OArray [OInt (6)%Z; OInt (1)%Z]; OArray [OInt (6)%Z; OInt (1)%Z]], Ok [(11)%Z; (7)%Z; (7)%Z], None, None, (2)%Z, [Die (6)%Z (6)%Z; Die (5)%Z (6)%Z; Die (6)%Z (6)%Z; Die (1)%Z (6)%Z; Die (6)%Z (6)%Z; Die (1)%Z (6)%Z]);
     Some ([OArray [OInt (6)%Z; OInt (5)%Z]; OArray [OInt (6)%Z; OInt (1)%Z]; OArray [OInt (5)%Z]], Ok [(11)%Z; (7)%Z; (5)%Z], None, None, (1)%Z, [Die (6)%Z (6)%Z; Die (5)%Z (6)%Z; Die (6)%Z (6)%Z; Die (1)%Z (6)%Z; Die (5)%Z (6)%Z]);
     Some ([OArray [OInt (6)%Z; OInt (5)%Z]; OArray [OInt (6)%Z; OInt (1)%Z]; OArray [OInt (5)%Z]], Ok [(11)%Z; (7)%Z; (5)%Z], None, None, (2)%Z, [Die (6)%Z (6)%Z; Die (5)%Z (6)%Z; Die (6)%Z (6)%Z; Die (1)%Z (6)%Z; Die (5)%Z (6)%Z]);
     Some ([OArray [OInt (6)%Z; OInt (5)%Z]; OArray [OInt (6)%Z; OInt (1)%Z]; OArray [OInt (6)%Z; OInt (1)%Z]], Ok [(11)%Z; (7)%Z; (7)%Z], None, None, (1)%Z, [Die (6)%Z (6)%Z; Die (5)%Z (6)%Z; Die (6)%Z (6)%Z; Die (1)%Z (6)%Z; Die (6)%Z (6)%Z; Die (1)%Z (6)%Z]);
     Some ([OArray [OInt (6)%Z; OInt (5)%Z]; OArray [OInt (6)%Z; OInt (1)%Z]; OArray [OInt (5)%Z]], Ok [(11)%Z; (7)%Z; (5)%Z], None, None, (3)%Z, [Die (6)%Z (6)%Z; Die (5)%Z (6)%Z; Die (6)%Z (6)%Z; Die (1)%Z (6)%Z; Die (5)%Z (6)%Z]);
     Some ([OArray [OInt (6)%Z; OInt (5)%Z]; OArray [OInt (6)%Z; OInt (1)%Z]; OArray [OInt (5)%Z]], Ok [(11)%Z; (7)%Z; (5)%Z], None, None, (2)%Z, [Die (6)%Z (6)%Z; Die (5)%Z (6)%Z; Die (6)%Z (6)%Z; Die (1)%Z (6)%Z; Die (5)%Z (6)%Z]);
     Some ([OArray [OInt (6)%Z; OInt (5)%Z]; OArray [OInt (6)%Z; OInt (1)%Z]; OArray [OInt (6)%Z; OInt (1)%Z]], Ok [(11)%Z; (7)%Z; (7)%Z], None, None, (3)%Z, [Die (6)%Z (6)%Z; Die (5)%Z (6)%Z; Die (6)%Z (6)%Z; Die (1)%Z (6)%Z; Die (6)%Z (6)%Z; Die (1)%Z (6)%Z]);
     Some ([OArray [OInt (6)%Z; OInt (5)%Z]; OArray [OInt (6)%Z; OInt (1)%Z]; OArray [OInt (5)%Z]], Ok [(11)%Z; (7)%Z; (5)%Z], None, None, (1)%Z, [Die (6)%Z (6)%Z; Die (5)%Z (6)%Z; Die (6)%Z (6)%Z; Die (1)%Z (6)%Z; Die (5)%Z (6)%Z]);
     Some ([OArray [OInt (6)%Z; OInt (5)%Z]; OArray [OInt (6)%Z; OInt (1)%Z]; OArray [OInt (5)%Z]], Ok [(11)%Z; (7)%Z; (5)%Z], None, None, (1)%Z, [Die (6)%Z (6)%Z; Die (5)%Z (6)%Z; Die (6)%Z (6)%Z; Die (1)%Z (6)%Z; Die (5)%Z (6)%Z]);
     Some ([OArray [OInt (6)%Z; OInt (5)%Z]; OArray [OInt (6)%Z; OInt (1)%Z]; OArray [OInt (6)%Z; OInt (1)%Z]], Ok [(11)%Z; (7)%Z; (7)%Z], None, None, (0)%Z, [Die (6)%Z (6)%Z; Die (5)%Z (6)%Z; Die (6)%Z (6)%Z; Die (1)%Z (6)%Z; Die (6)%Z (6)%Z; Die (1)%Z (6)%Z]);
     Some ([OArray [OInt (6)%Z; OInt (5)%Z]; OArray [OInt (6)%Z; OInt (1)%Z]; OArray [OInt (5)%Z]], Ok [(11)%Z; (7)%Z; (5)%Z], None, None, (2)%Z, [Die (6)%Z (6)%Z; Die (5)%Z (6)%Z; Die (6)%Z (6)%Z; Die (1)%Z (6)%Z; Die (5)%Z (6)%Z]);
     Some ([OArray [OInt (6)%Z; OInt (5)%Z]; OArray [OInt (6)%Z; OInt (1)%Z]; OArray [OInt (5)%Z]], Ok [(11)%Z; (7)%Z; (5)%Z], None, None, (2)%Z, [Die (6)%Z (6)%Z; Die (5)%Z (6)%Z; Die (6)%Z (6)%Z; Die (1)%Z (6)%Z; Die (5)%Z (6)%Z]);
     Some ([OArray [OInt (6)%Z; OInt (5)%Z]; OArray [OInt (6)%Z; OInt (1)%Z]; OArray [OInt (6)%Z; OInt (1)%Z]], Ok [(11)%Z; (7)%Z; (7)%Z], None, None, (3)%Z, [Die (6)%Z (6)%Z; Die (5)%Z (6)%Z; Die (6)%Z (6)%Z; Die (1)%Z (6)%Z; Die (6)%Z (6)%Z; Die (1)%Z (6)%Z]);
     Some ([OArray [OInt (6)%Z; OInt (5)%Z]; OArray [OInt (6)%Z; OInt (1)%Z]; OArray [OInt (5)%Z]], Ok [(11)%Z; (7)%Z; (5)%Z], None, None, (1)%Z, [Die (6)%Z (6)%Z; Die (5)%Z (6)%Z; Die (6)%Z (6)%Z; Die (1)%Z (6)%Z; Die (5)%Z (6)%Z]);
     Some ([OArray [OInt (6)%Z; OInt (5)%Z]; OArray [OInt (6)%Z; OInt (1)%Z]; OArray [OInt (5)%Z]], Ok [(11)%Z; (7)%Z; (5)%Z], None, None, (2)%Z, [Die (6)%Z (6)%Z; Die (5)%Z (6)%Z; Die (6)%Z (6)%Z; Die (1)%Z (6)%Z; Die (5)%Z (6)%Z]);
     Some ([OArray [OInt (6)%Z; OInt (5)%Z]; OArray [OInt (6)%Z; OInt (1)%Z]; OArray [OInt (6)%Z; OInt (1)%Z]], Ok [(11)%Z; (7)%Z; (7)%Z], None, None, (2)%Z, [Die (6)%Z (6)%Z; Die (5)%Z (6)%Z; Die (6)%Z (6)%Z; Die (1)%Z (6)%Z; Die (6)%Z (6)%Z; Die (1)%Z (6)%Z]);
     Some ([OArray [OInt (6)%Z; OInt (5)%Z]; OArray [OInt (6)%Z; OInt (1)%Z]; OArray [OInt (5)%Z]], Ok [(11)%Z; (7)%Z; (5)%Z], None, None, (3)%Z, [Die (6)%Z (6)%Z; Die (5)%Z (6)%Z; Die (6)%Z (6)%Z; Die (1)%Z (6)%Z; Die (5)%Z (6)%Z]);
     Some ([OArray [OInt (3)%Z]; OArray [OInt (5)%Z]; OArray [OInt (3)%Z]; OArray [OInt (6)%Z; OInt (4)%Z]; OArray [OInt (1)%Z]; OArray [OInt (6)%Z; OInt (6)%Z; OInt (3)%Z]; OArray [OInt (5)%Z]; OArray [OInt (1)%Z]], Ok [(3)%Z; (5)%Z; (3)%Z; (10)%Z; (1)%Z; (15)%Z; (5)%Z; (1)%Z], None, None, (2)%Z, [Die (3)%Z (6)%Z; Die (5)%Z (6)%Z; Die (3)%Z (6)%Z; Die (6)%Z (6)%Z; Die (4)%Z (6)%Z; Die (1)%Z (6)%Z; Die (6)%Z (6)%Z; Die (6)%Z (6)%Z; Die (3)%Z (6)%Z; Die (5)%Z (6)%Z; Die (1)%Z (6)%Z]);
     Some ([OArray [OInt (3)%Z]; OArray [OInt (2)%Z]; OArray [OInt (7)%Z]; OArray [OInt (4)%Z]; OArray [OInt (7)%Z]; OArray [OInt (5)%Z]; OArray [OInt (4)%Z]; OArray [OInt (4)%Z]; OArray [OInt (7)%Z]; OArray [OInt (10)%Z; OInt (6)%Z]; OArray [OInt (1)%Z]], Ok [(3)%Z; (2)%Z; (7)%Z; (4)%Z; (7)%Z; (5)%Z; (4)%Z; (4)%Z; (7)%Z; (16)%Z; (1)%Z], None, None, (9)%Z, [Die (3)%Z (10)%Z; Die (2)%Z (10)%Z; Die (7)%Z (10)%Z; Die (4)%Z (10)%Z; Die (7)%Z (10)%Z; Die (5)%Z (10)%Z; Die (4)%Z (10)%Z; Die (4)%Z (10)%Z; Die (7)%Z (10)%Z; Die (10)%Z (10)%Z; Die (6)%Z (10)%Z; Die (1)%Z (10)%Z])].
Proof. vm_compute. reflexivity. Qed.
(** core/evaluator/eval_u_roll_comp_test.go [TestEvalURollComp], the rows with [err: true] *)
Example test_eval_u_roll_comp_err :
  [unevaluated "3U6>=7";
   unevaluated "3U6[1]>=7"]
  = [true;
     true].
Proof. vm_compute. reflexivity. Qed.
(** core/notation/notation_test.go [TestInfixNotation] *)
Example test_infix_notation :
  [notated "C(1)";
   notated "C(-1)";
   notated "C(1-(-1))";
   notated "C(-1+2)";
   notated "C((-1)*2)";
   notated "C((-1)*(-2))";
   notated "C(((1+2)+3)+4)";
   notated "C(((1+2)+3)-4)";
   notated "C(((1+2)+3)*4)";
   notated "C(((1+2)+3)/4)";
   notated "C(((1+2)-3)+4)";
   notated "C(((1+2)-3)-4)";
   notated "C(((1+2)-3)*4)";
   notated "C(((1+2)-3)/4)";
   notated "C(((1+2)*3)+4)";
   notated "C(((1+2)*3)-4)";
   notated "C(((1+2)*3)*4)";
   notated "C(((1+2)*3)/4)";
   notated "C(((1+2)/3)+4)";
   notated "C(((1+2)/3)-4)";
   notated "C(((1+2)/3)*4)";
   notated "C(((1+2)/3)/4)";
   notated "C(((1-2)+3)+4)";
   notated "C(((1-2)+3)-4)";
   notated "C(((1-2)+3)*4)";
   notated "C(((1-2)+3)/4)";
   notated "C(((1-2)-3)+4)";
   notated "C(((1-2)-3)-4)";
   notated "C(((1-2)-3)*4)";
   notated "C(((1-2)-3)/4)";
   notated "C(((1-2)*3)+4)";
   notated "C(((1-2)*3)-4)";
   notated "C(((1-2)*3)*4)";
   notated "C(((1-2)*3)/4)";
   notated "C(((1-2)/3)+4)";
   notated "C(((1-2)/3)-4)";
   notated "C(((1-2)/3)*4)";
   notated "C(((1-2)/3)/4)";
   notated "C(((1*2)+3)+4)";
   notated "C(((1*2)+3)-4)";
   notated "C(((1*2)+3)*4)";
   notated "C(((1*2)+3)/4)";
   notated "C(((1*2)-3)+4)";
   notated "C(((1*2)-3)-4)";
   notated "C(((1*2)-3)*4)";
   notated "C(((1*2)-3)/4)";
   notated "C(((1*2)*3)+4)";
   notated "C(((1*2)*3)-4)";
   notated "C(((1*2)*3)*4)";
   notated "C(((1*2)*3)/4)";
   notated "C(((1*2)/3)+4)";
   notated "C(((1*2)/3)-4)";
   notated "C(((1*2)/3)*4)";
   notated "C(((1*2)/3)/4)";
   notated "C(((1/2)+3)+4)";
   notated "C(((1/2)+3)-4)";
   notated "C(((1/2)+3)*4)";
   notated "C(((1/2)+3)/4)";
   notated "C(((1/2)-3)+4)";
   notated "C(((1/2)-3)-4)";
   notated "C(((1/2)-3)*4)";
   notated "C(((1/2)-3)/4)";
   notated "C(((1/2)*3)+4)";
   notated "C(((1/2)*3)-4)";
   notated "C(((1/2)*3)*4)";
   notated "C(((1/2)*3)/4)";
   notated "C(((1/2)/3)+4)";
   notated "C(((1/2)/3)-4)";
   notated "C(((1/2)/3)*4)";
   notated "C(((1/2)/3)/4)";
   notated "C((1+(2+3))+4)";
   notated "C((1+(2+3))-4)";
   notated "C((1+(2+3))*4)";
   notated "C((1+(2+3))/4)";
   notated "C((1+(2-3))+4)";
   notated "C((1+(2-3))-4)";
   notated "C((1+(2-3))*4)";
   notated "C((1+(2-3))/4)";
   notated "C((1+(2*3))+4)";
   notated "C((1+(2*3))-4)";
   notated "C((1+(2*3))*4)";
   notated "C((1+(2*3))/4)";
   notated "C((1+(2/3))+4)";
   notated "C((1+(2/3))-4)";
   notated "C((1+(2/3))*4)";
   notated "C((1+(2/3))/4)";
   notated "C((1-(2+3))+4)";
   notated "C((1-(2+3))-4)";
   notated "C((1-(2+3))*4)";
   notated "C((1-(2+3))/4)";
   notated "C((1-(2-3))+4)";
   notated "C((1-(2-3))-4)";
   notated "C((1-(2-3))*4)";
   notated "C((1-(2-3))/4)";
   notated "C((1-(2*3))+4)";
   notated "C((1-(2*3))-4)";
   notated "C((1-(2*3))*4)";
   notated "C((1-(2*3))/4)";
   notated "C((1-(2/3))+4)";
   notated "C((1-(2/3))-4)";
   notated "C((1-(2/3))*4)";
   notated "C((1-(2/3))/4)";
   notated "C((1*(2+3))+4)";
   notated "C((1*(2+3))-4)";
   notated "C((1*(2+3))*4)";
   notated "C((1*(2+3))/4)";
   notated "C((1*(2-3))+4)";
   notated "C((1*(2-3))-4)";
   notated "C((1*(2-3))*4)";
   notated "C((1*(2-3))/4)";
   notated "C((1*(2*3))+4)";
   notated "C((1*(2*3))-4)";
   notated "C((1*(2*3))*4)";
   notated "C((1*(2*3))/4)";
   notated "C((1*(2/3))+4)";
   notated "C((1*(2/3))-4)";
   notated "C((1*(2/3))*4)";
   notated "C((1*(2/3))/4)";
   notated "C((1/(2+3))+4)";
   notated "C((1/(2+3))-4)";
   notated "C((1/(2+3))*4)";
   notated "C((1/(2+3))/4)";
   notated "C((1/(2-3))+4)";
   notated "C((1/(2-3))-4)";
   notated "C((1/(2-3))*4)";
   notated "C((1/(2-3))/4)";
   notated "C((1/(2*3))+4)";
   notated "C((1/(2*3))-4)";
   notated "C((1/(2*3))*4)";
   notated "C((1/(2*3))/4)";
   notated "C((1/(2/3))+4)";
   notated "C((1/(2/3))-4)";
   notated "C((1/(2/3))*4)";
   notated "C((1/(2/3))/4)";
   notated "C((1+2)+(3+4))";
   notated "C((1+2)+(3-4))";
   notated "C((1+2)+(3*4))";
   notated "C((1+2)+(3/4))";
   notated "C((1+2)-(3+4))";
   notated "C((1+2)-(3-4))";
   notated "C((1+2)-(3*4))";
   notated "C((1+2)-(3/4))";
   notated "C((1+2)*(3+4))";
   notated "C((1+2)*(3-4))";
   notated "C((1+2)*(3*4))";
   notated "C((1+2)*(3/4))";
   notated "C((1+2)/(3+4))";
   notated "C((1+2)/(3-4))";
   notated "C((1+2)/(3*4))";
   notated "C((1+2)/(3/4))";
   notated "C((1-2)+(3+4))";
   notated "C((1-2)+(3-4))";
   notated "C((1-2)+(3*4))";
   notated "C((1-2)+(3/4))";
   notated "C((1-2)-(3+4))";
   notated "C((1-2)-(3-4))";
   notated "C((1-2)-(3*4))";
   notated "C((1-2)-(3/4))";
   notated "C((1-2)*(3+4))";
   notated "C((1-2)*(3-4))";
   notated "C((1-2)*(3*4))";
   notated "C((1-2)*(3/4))";
   notated "C((1-2)/(3+4))";
   notated "C((1-2)/(3-4))";
   notated "C((1-2)/(3*4))";
   notated "C((1-2)/(3/4))";
   notated "C((1*2)+(3+4))";
   notated "C((1*2)+(3-4))";
   notated "C((1*2)+(3*4))";
   notated "C((1*2)+(3/4))";
   notated "C((1*2)-(3+4))";
   notated "C((1*2)-(3-4))";
   notated "C((1*2)-(3*4))";
   notated "C((1*2)-(3/4))";
   notated "C((1*2)*(3+4))";
   notated "C((1*2)*(3-4))";
   notated "C((1*2)*(3*4))";
   notated "C((1*2)*(3/4))";
   notated "C((1*2)/(3+4))";
   notated "C((1*2)/(3-4))";
   notated "C((1*2)/(3*4))";
   notated "C((1*2)/(3/4))";
   notated "C((1/2)+(3+4))";
   notated "C((1/2)+(3-4))";
   notated "C((1/2)+(3*4))";
   notated "C((1/2)+(3/4))";
   notated "C((1/2)-(3+4))";
   notated "C((1/2)-(3-4))";
   notated "C((1/2)-(3*4))";
   notated "C((1/2)-(3/4))";
   notated "C((1/2)*(3+4))";
   notated "C((1/2)*(3-4))";
   notated "C((1/2)*(3*4))";
   notated "C((1/2)*(3/4))";
   notated "C((1/2)/(3+4))";
   notated "C((1/2)/(3-4))";
   notated "C((1/2)/(3*4))";
   notated "C((1/2)/(3/4))";
   notated "C(1+((2+3)+4))";
   notated "C(1+((2+3)-4))";
   notated "C(1+((2+3)*4))";
   notated "C(1+((2+3)/4))";
   notated "C(1+((2-3)+4))";
   notated "C(1+((2-3)-4))";
   notated "C(1+((2-3)*4))";
   notated "C(1+((2-3)/4))";
   notated "C(1+((2*3)+4))";
   notated "C(1+((2*3)-4))";
   notated "C(1+((2*3)*4))";
   notated "C(1+((2*3)/4))";
   notated "C(1+((2/3)+4))";
   notated "C(1+((2/3)-4))";
   notated "C(1+((2/3)*4))";
   notated "C(1+((2/3)/4))";
   notated "C(1-((2+3)+4))";
   notated "C(1-((2+3)-4))";
   notated "C(1-((2+3)*4))";
   notated "C(1-((2+3)/4))";
   notated "C(1-((2-3)+4))";
   notated "C(1-((2-3)-4))";
   notated "C(1-((2-3)*4))";
   notated "C(1-((2-3)/4))";
   notated "C(1-((2*3)+4))";
   notated "C(1-((2*3)-4))";
   notated "C(1-((2*3)*4))";
   notated "C(1-((2*3)/4))";
   notated "C(1-((2/3)+4))";
   notated "C(1-((2/3)-4))";
   notated "C(1-((2/3)*4))";
   notated "C(1-((2/3)/4))";
   notated "C(1*((2+3)+4))";
   notated "C(1*((2+3)-4))";
   notated "C(1*((2+3)*4))";
   notated "C(1*((2+3)/4))";
   notated "C(1*((2-3)+4))";
   notated "C(1*((2-3)-4))";
   notated "C(1*((2-3)*4))";
   notated "C(1*((2-3)/4))";
   notated "C(1*((2*3)+4))";
   notated "C(1*((2*3)-4))";
   notated "C(1*((2*3)*4))";
   notated "C(1*((2*3)/4))";
   notated "C(1*((2/3)+4))";
   notated "C(1*((2/3)-4))";
   notated "C(1*((2/3)*4))";
   notated "C(1*((2/3)/4))";
   notated "C(1/((2+3)+4))";
   notated "C(1/((2+3)-4))";
   notated "C(1/((2+3)*4))";
   notated "C(1/((2+3)/4))";
   notated "C(1/((2-3)+4))";
   notated "C(1/((2-3)-4))";
   notated "C(1/((2-3)*4))";
   notated "C(1/((2-3)/4))";
   notated "C(1/((2*3)+4))";
   notated "C(1/((2*3)-4))";
   notated "C(1/((2*3)*4))";
   notated "C(1/((2*3)/4))";
   notated "C(1/((2/3)+4))";
   notated "C(1/((2/3)-4))";
   notated "C(1/((2/3)*4))";
   notated "C(1/((2/3)/4))";
   notated "C(1+(2+(3+4)))";
   notated "C(1+(2+(3-4)))";
   notated "C(1+(2+(3*4)))";
   notated "C(1+(2+(3/4)))";
   notated "C(1+(2-(3+4)))";
   notated "C(1+(2-(3-4)))";
   notated "C(1+(2-(3*4)))";
   notated "C(1+(2-(3/4)))";
   notated "C(1+(2*(3+4)))";
   notated "C(1+(2*(3-4)))";
   notated "C(1+(2*(3*4)))";
   notated "C(1+(2*(3/4)))";
   notated "C(1+(2/(3+4)))";
   notated "C(1+(2/(3-4)))";
   notated "C(1+(2/(3*4)))";
   notated "C(1+(2/(3/4)))";
   notated "C(1-(2+(3+4)))";
   notated "C(1-(2+(3-4)))";
   notated "C(1-(2+(3*4)))";
   notated "C(1-(2+(3/4)))";
   notated "C(1-(2-(3+4)))";
   notated "C(1-(2-(3-4)))";
   notated "C(1-(2-(3*4)))";
   notated "C(1-(2-(3/4)))";
   notated "C(1-(2*(3+4)))";
   notated "C(1-(2*(3-4)))";
   notated "C(1-(2*(3*4)))";
   notated "C(1-(2*(3/4)))";
   notated "C(1-(2/(3+4)))";
   notated "C(1-(2/(3-4)))";
   notated "C(1-(2/(3*4)))";
   notated "C(1-(2/(3/4)))";
   notated "C(1*(2+(3+4)))";
   notated "C(1*(2+(3-4)))";
   notated "C(1*(2+(3*4)))";
   notated "C(1*(2+(3/4)))";
   notated "C(1*(2-(3+4)))";
   notated "C(1*(2-(3-4)))";
   notated "C(1*(2-(3*4)))";
   notated "C(1*(2-(3/4)))";
   notated "C(1*(2*(3+4)))";
   notated "C(1*(2*(3-4)))";
   notated "C(1*(2*(3*4)))";
   notated "C(1*(2*(3/4)))";
   notated "C(1*(2/(3+4)))";
   notated "C(1*(2/(3-4)))";
   notated "C(1*(2/(3*4)))";
   notated "C(1*(2/(3/4)))";
   notated "C(1/(2+(3+4)))";
   notated "C(1/(2+(3-4)))";
   notated "C(1/(2+(3*4)))";
   notated "C(1/(2+(3/4)))";
   notated "C(1/(2-(3+4)))";
   notated "C(1/(2-(3-4)))";
   notated "C(1/(2-(3*4)))";
   notated "C(1/(2-(3/4)))";
   notated "C(1/(2*(3+4)))";
   notated "C(1/(2*(3-4)))";
   notated "C(1/(2*(3*4)))";
   notated "C(1/(2*(3/4)))";
   notated "C(1/(2/(3+4)))";
   notated "C(1/(2/(3-4)))";
   notated "C(1/(2/(3*4)))";
   notated "C(1/(2/(3/4)))";
   notated "C(1/2u)";
   notated "C(1/2r)";
   notated "C(100/(1+2)u)";
   notated "C(100/(1+2)r)";
   notated "C(-1+-2*-3--4)";
   notated "C(-1+(-2-3)*-4)";
   notated "C((-1+-2)-3*-4)";
   notated "C(-1+-1*2-32/8)";
   notated "C(-1+(-(-1-3))*2-32/8)";
   notated "C(-1+(-(-1-(1+2)))*2-32/8)";
   notated "2D6";
   notated "12D60";
   notated "-2D6";
   notated "+2D6";
   notated "2D6+1";
   notated "1+2D6";
   notated "-2D6+1";
   notated "+2D6+1";
   notated "2d6+1-1-2-3-4";
   notated "2D6+4D10";
   notated "(2D6)";
   notated "-(2D6)";
   notated "+(2D6)";
   notated "2d6*3";
   notated "2d6/2";
   notated "2d6/2u";
   notated "2d6/2r";
   notated "100/2d6+1";
   notated "100/2d6u+1";
   notated "100/2d6r+1";
   notated "100/(2d6+1)+4*5";
   notated "100/(2d6+1)u+4*5";
   notated "100/(2d6+1)r+4*5";
   notated "4d10/2d6+1";
   notated "4d10/2d6u+1";
   notated "4d10/2d6r+1";
   notated "2d10+3-4";
   notated "2d10+3*4";
   notated "2d10/3+4*5-6";
   notated "2d10/3u+4*5-6";
   notated "2d10/3r+4*5-6";
   notated "2d6*3-1d6+1";
   notated "(2+3)d6-1+3d6+2";
   notated "(2*3-4)d6-1d4+1";
   notated "((2+3)*4/3)d6*2+5";
   notated "2d(1+5)";
   notated "(8/2)D(4+6)";
   notated "(2-1)d(8/2)*(1+1)d(3*4/2)+2*3";
   notated "[1...5]D6";
   notated "([2...4]+2)D10";
   notated "[(2+3)...8]D6";
   notated "[5...(7+1)]D6";
   notated "2d[1...5]";
   notated "2d([2...4]+2)";
   notated "2d[(2+3)...8]";
   notated "2d[5...(7+1)]";
   notated "[1...5]d(2*3)";
   notated "(1+1)d[1...5]";
   notated "([1...4]+1)d([2...4]+2)-1";
   notated "2D6=7";
   notated "2D6+1=7";
   notated "1+2D6=7";
   notated "2D6<>7";
   notated "2D6<7";
   notated "2D6>7";
   notated "2D6<=7";
   notated "2D6>=7";
   notated "-2D6<-7";
   notated "-2D6>-7";
   notated "-2D6<=-7";
   notated "-2D6>=-7";
   notated "2b6";
   notated "[1...3]b6";
   notated "2b[4...6]";
   notated "[1...3]b[4...6]";
   notated "(1*2)b6";
   notated "([1...3]+1)b6";
   notated "2b(2+4)";
   notated "2b([3...5]+1)";
   notated "[1...5]b(2*3)";
   notated "(1+1)b[1...5]";
   notated "(1*2)b(2+4)";
   notated "2b6+4b10";
   notated "2b6+3b8+5b12";
   notated "2b6=3";
   notated "2b6<>3";
   notated "2b6>3";
   notated "2b6<3";
   notated "2b6>=3";
   notated "2b6<=3";
   notated "2b6>4-1";
   notated "2b6+4b10>4";
   notated "2b6>-(-1*3)";
   notated "3r6>=4";
   notated "3r6+2r6<=2";
   notated "(3+2)r6>=5";
   notated "1r(2*3)>=4";
   notated "3r6>1*4";
   notated "2r6";
   notated "2r6[5]";
   notated "3r6+2r6[2]";
   notated "6R6[6]>=5";
   notated "6R6[2*3]>=5";
   notated "3u6";
   notated "(1*3)u6";
   notated "3u(5+1)";
   notated "3u6[6]";
   notated "3u6[2+4]";
   notated "3u6+5u6[6]";
   notated "3u6[6]+1";
   notated "3u6[6]-1";
   notated "3u6[6]+1*2";
   notated "3u6[6]+5/2";
   notated "1U100[96]+3";
   notated "3u6[6]=10";
   notated "3u6[6]<>10";
   notated "3u6[6]>10";
   notated "3u6[6]<10";
   notated "3u6[6]>=10";
   notated "3u6[6]<=10";
   notated "3u6[6]>=2+8";
   notated "3u6[6]+1>=10";
   notated "3u6+5u6[6]>=7";
   notated "(5+6)u10[10]+5>=8";
   notated "choice[A,B,C]どれにしよう";
   notated "choice[A,B, ]";
   notated "Choice[ A, B,   C     ,D ]";
   notated "CHOICE[Call of Cthulhu, Sword World, Double Cross]";
   notated "CHOICE[日本語, でも,　だいじょうぶ]";
   notated "choice[1+2, (3*4), 5d6]"]
  = [Some "C(1)";
     Some "C(-1)";
     Some "C(1-(-1))";
     Some "C(-1+2)";
     Some "C(-1*2)";
     Some "C(-1*(-2))";
     Some "C(1+2+3+4)";
     Some "C(1+2+3-4)";
     Some "C((1+2+3)*4)";
     Some "C((1+2+3)/4)";
     Some "C(1+2-3+4)";
     Some "C(1+2-3-4)";
     Some "C((1+2-3)*4)";
     Some "C((1+2-3)/4)";
     Some "C((1+2)*3+4)";
     Some "C((1+2)*3-4)";
     Some "C((1+2)*3*4)";
     Some "C((1+2)*3/4)";
     Some "C((1+2)/3+4)";
     Some "C((1+2)/3-4)";
     Some "C((1+2)/3*4)";
     Some "C((1+2)/3/4)";
     Some "C(1-2+3+4)";
     Some "C(1-2+3-4)";
     Some "C((1-2+3)*4)";
     Some "C((1-2+3)/4)";
     Some "C(1-2-3+4)";
     Some "C(1-2-3-4)";
     Some "C((1-2-3)*4)";
     Some "C((1-2-3)/4)";
     Some "C((1-2)*3+4)";
     Some "C((1-2)*3-4)";
     Some "C((1-2)*3*4)";
     Some "C((1-2)*3/4)";
     Some "C((1-2)/3+4)";
     Some "C((1-2)/3-4)";
     Some "C((1-2)/3*4)";
     Some "C((1-2)/3/4)";
     Some "C(1*2+3+4)";
     Some "C(1*2+3-4)";
     Some "C((1*2+3)*4)";
     Some "C((1*2+3)/4)";
     Some "C(1*2-3+4)";
     Some "C(1*2-3-4)";
     Some "C((1*2-3)*4)";
     Some "C((1*2-3)/4)";
     Some "C(1*2*3+4)";
     Some "C(1*2*3-4)";
     Some "C(1*2*3*4)";
     Some "C(1*2*3/4)";
     Some "C(1*2/3+4)";
     Some "C(1*2/3-4)";
     Some "C(1*2/3*4)";
     Some "C(1*2/3/4)";
     Some "C(1/2+3+4)";
     Some "C(1/2+3-4)";
     Some "C((1/2+3)*4)";
     Some "C((1/2+3)/4)";
     Some "C(1/2-3+4)";
     Some "C(1/2-3-4)";
     Some "C((1/2-3)*4)";
     Some "C((1/2-3)/4)";
     Some "C(1/2*3+4)";
     Some "C(1/2*3-4)";
     Some "C(1/2*3*4)";
     Some "C(1/2*3/4)";
     Some "C(1/2/3+4)";
     Some "C(1/2/3-4)";
     Some "C(1/2/3*4)";
     Some "C(1/2/3/4)";
     Some "C(1+2+3+4)";
     Some "C(1+2+3-4)";
     Some "C((1+2+3)*4)";
     Some "C((1+2+3)/4)";
     Some "C(1+2-3+4)";
     Some "C(1+2-3-4)";
     Some "C((1+2-3)*4)";
     Some "C((1+2-3)/4)";
     Some "C(1+2*3+4)";
     Some "C(1+2*3-4)";
     Some "C((1+2*3)*4)";
     Some "C((1+2*3)/4)";
     Some "C(1+2/3+4)";
     Some "C(1+2/3-4)";
     Some "C((1+2/3)*4)";
     Some "C((1+2/3)/4)";
     Some "C(1-(2+3)+4)";
     Some "C(1-(2+3)-4)";
     Some "C((1-(2+3))*4)";
     Some "C((1-(2+3))/4)";
     Some "C(1-(2-3)+4)";
     Some "C(1-(2-3)-4)";
     Some "C((1-(2-3))*4)";
     Some "C((1-(2-3))/4)";
     Some "C(1-2*3+4)";
     Some "C(1-2*3-4)";
     Some "C((1-2*3)*4)";
     Some "C((1-2*3)/4)";
     Some "C(1-2/3+4)";
     Some "C(1-2/3-4)";
     Some "C((1-2/3)*4)";
     Some "C((1-2/3)/4)";
     Some "C(1*(2+3)+4)";
     Some "C(1*(2+3)-4)";
     Some "C(1*(2+3)*4)";
     Some "C(1*(2+3)/4)";
     Some "C(1*(2-3)+4)";
     Some "C(1*(2-3)-4)";
     Some "C(1*(2-3)*4)";
     Some "C(1*(2-3)/4)";
     Some "C(1*2*3+4)";
     Some "C(1*2*3-4)";
     Some "C(1*2*3*4)";
     Some "C(1*2*3/4)";
     Some "C(1*2/3+4)";
     Some "C(1*2/3-4)";
     Some "C(1*2/3*4)";
     Some "C(1*2/3/4)";
     Some "C(1/(2+3)+4)";
     Some "C(1/(2+3)-4)";
     Some "C(1/(2+3)*4)";
     Some "C(1/(2+3)/4)";
     Some "C(1/(2-3)+4)";
     Some "C(1/(2-3)-4)";
     Some "C(1/(2-3)*4)";
     Some "C(1/(2-3)/4)";
     Some "C(1/(2*3)+4)";
     Some "C(1/(2*3)-4)";
     Some "C(1/(2*3)*4)";
     Some "C(1/(2*3)/4)";
     Some "C(1/(2/3)+4)";
     Some "C(1/(2/3)-4)";
     Some "C(1/(2/3)*4)";
     Some "C(1/(2/3)/4)";
     Some "C(1+2+3+4)";
     Some "C(1+2+3-4)";
     Some "C(1+2+3*4)";
     Some "C(1+2+3/4)";
     Some "C(1+2-(3+4))";
     Some "C(1+2-(3-4))";
     Some "C(1+2-3*4)";
     Some "C(1+2-3/4)";
     Some "C((1+2)*(3+4))";
     Some "C((1+2)*(3-4))";
     Some "C((1+2)*3*4)";
     Some "C((1+2)*3/4)";
     Some "C((1+2)/(3+4))";
     Some "C((1+2)/(3-4))";
     Some "C((1+2)/(3*4))";
     Some "C((1+2)/(3/4))";
     Some "C(1-2+3+4)";
     Some "C(1-2+3-4)";
     Some "C(1-2+3*4)";
     Some "C(1-2+3/4)";
     Some "C(1-2-(3+4))";
     Some "C(1-2-(3-4))";
     Some "C(1-2-3*4)";
     Some "C(1-2-3/4)";
     Some "C((1-2)*(3+4))";
     Some "C((1-2)*(3-4))";
     Some "C((1-2)*3*4)";
     Some "C((1-2)*3/4)";
     Some "C((1-2)/(3+4))";
     Some "C((1-2)/(3-4))";
     Some "C((1-2)/(3*4))";
     Some "C((1-2)/(3/4))";
     Some "C(1*2+3+4)";
     Some "C(1*2+3-4)";
     Some "C(1*2+3*4)";
     Some "C(1*2+3/4)";
     Some "C(1*2-(3+4))";
     Some "C(1*2-(3-4))";
     Some "C(1*2-3*4)";
     Some "C(1*2-3/4)";
     Some "C(1*2*(3+4))";
     Some "C(1*2*(3-4))";
     Some "C(1*2*3*4)";
     Some "C(1*2*3/4)";
     Some "C(1*2/(3+4))";
     Some "C(1*2/(3-4))";
     Some "C(1*2/(3*4))";
     Some "C(1*2/(3/4))";
     Some "C(1/2+3+4)";
     Some "C(1/2+3-4)";
     Some "C(1/2+3*4)";
     Some "C(1/2+3/4)";
     Some "C(1/2-(3+4))";
     Some "C(1/2-(3-4))";
     Some "C(1/2-3*4)";
     Some "C(1/2-3/4)";
     Some "C(1/2*(3+4))";
     Some "C(1/2*(3-4))";
     Some "C(1/2*3*4)";
     Some "C(1/2*3/4)";
     Some "C(1/2/(3+4))";
     Some "C(1/2/(3-4))";
     Some "C(1/2/(3*4))";
     Some "C(1/2/(3/4))";
     Some "C(1+2+3+4)";
     Some "C(1+2+3-4)";
     Some "C(1+(2+3)*4)";
     Some "C(1+(2+3)/4)";
     Some "C(1+2-3+4)";
     Some "C(1+2-3-4)";
     Some "C(1+(2-3)*4)";
     Some "C(1+(2-3)/4)";
     Some "C(1+2*3+4)";
     Some "C(1+2*3-4)";
     Some "C(1+2*3*4)";
     Some "C(1+2*3/4)";
     Some "C(1+2/3+4)";
     Some "C(1+2/3-4)";
     Some "C(1+2/3*4)";
     Some "C(1+2/3/4)";
     Some "C(1-(2+3+4))";
     Some "C(1-(2+3-4))";
     Some "C(1-(2+3)*4)";
     Some "C(1-(2+3)/4)";
     Some "C(1-(2-3+4))";
     Some "C(1-(2-3-4))";
     Some "C(1-(2-3)*4)";
     Some "C(1-(2-3)/4)";
     Some "C(1-(2*3+4))";
     Some "C(1-(2*3-4))";
     Some "C(1-2*3*4)";
     Some "C(1-2*3/4)";
     Some "C(1-(2/3+4))";
     Some "C(1-(2/3-4))";
     Some "C(1-2/3*4)";
     Some "C(1-2/3/4)";
     Some "C(1*(2+3+4))";
     Some "C(1*(2+3-4))";
     Some "C(1*(2+3)*4)";
     Some "C(1*(2+3)/4)";
     Some "C(1*(2-3+4))";
     Some "C(1*(2-3-4))";
     Some "C(1*(2-3)*4)";
     Some "C(1*(2-3)/4)";
     Some "C(1*(2*3+4))";
     Some "C(1*(2*3-4))";
     Some "C(1*2*3*4)";
     Some "C(1*2*3/4)";
     Some "C(1*(2/3+4))";
     Some "C(1*(2/3-4))";
     Some "C(1*2/3*4)";
     Some "C(1*2/3/4)";
     Some "C(1/(2+3+4))";
     Some "C(1/(2+3-4))";
     Some "C(1/((2+3)*4))";
     Some "C(1/((2+3)/4))";
     Some "C(1/(2-3+4))";
     Some "C(1/(2-3-4))";
     Some "C(1/((2-3)*4))";
     Some "C(1/((2-3)/4))";
     Some "C(1/(2*3+4))";
     Some "C(1/(2*3-4))";
     Some "C(1/(2*3*4))";
     Some "C(1/(2*3/4))";
     Some "C(1/(2/3+4))";
     Some "C(1/(2/3-4))";
     Some "C(1/(2/3*4))";
     Some "C(1/(2/3/4))";
     Some "C(1+2+3+4)";
     Some "C(1+2+3-4)";
     Some "C(1+2+3*4)";
     Some "C(1+2+3/4)";
     Some "C(1+2-(3+4))";
     Some "C(1+2-(3-4))";
     Some "C(1+2-3*4)";
     Some "C(1+2-3/4)";
     Some "C(1+2*(3+4))";
     Some "C(1+2*(3-4))";
     Some "C(1+2*3*4)";
     Some "C(1+2*3/4)";
     Some "C(1+2/(3+4))";
     Some "C(1+2/(3-4))";
     Some "C(1+2/(3*4))";
     Some "C(1+2/(3/4))";
     Some "C(1-(2+3+4))";
     Some "C(1-(2+3-4))";
     Some "C(1-(2+3*4))";
     Some "C(1-(2+3/4))";
     Some "C(1-(2-(3+4)))";
     Some "C(1-(2-(3-4)))";
     Some "C(1-(2-3*4))";
     Some "C(1-(2-3/4))";
     Some "C(1-2*(3+4))";
     Some "C(1-2*(3-4))";
     Some "C(1-2*3*4)";
     Some "C(1-2*3/4)";
     Some "C(1-2/(3+4))";
     Some "C(1-2/(3-4))";
     Some "C(1-2/(3*4))";
     Some "C(1-2/(3/4))";
     Some "C(1*(2+3+4))";
     Some "C(1*(2+3-4))";
     Some "C(1*(2+3*4))";
     Some "C(1*(2+3/4))";
     Some "C(1*(2-(3+4)))";
     Some "C(1*(2-(3-4)))";
     Some "C(1*(2-3*4))";
     Some "C(1*(2-3/4))";
     Some "C(1*2*(3+4))";
     Some "C(1*2*(3-4))";
     Some "C(1*2*3*4)";
     Some "C(1*2*3/4)";
     Some "C(1*2/(3+4))";
     Some "C(1*2/(3-4))";
     Some "C(1*2/(3*4))";
     Some "C(1*2/(3/4))";
     Some "C(1/(2+3+4))";
     Some "C(1/(2+3-4))";
     Some "C(1/(2+3*4))";
     Some "C(1/(2+3/4))";
     Some "C(1/(2-(3+4)))";
     Some "C(1/(2-(3-4)))";
     Some "C(1/(2-3*4))";
     Some "C(1/(2-3/4))";
     Some "C(1/(2*(3+4)))";
     Some "C(1/(2*(3-4)))";
     Some "C(1/(2*3*4))";
     Some "C(1/(2*3/4))";
     Some "C(1/(2/(3+4)))";
     Some "C(1/(2/(3-4)))";
     Some "C(1/(2/(3*4)))";
     Some "C(1/(2/(3/4)))";
     Some "C(1/2U)";
     Some "C(1/2R)";
     Some "C(100/(1+2)U)";
     Some "C(100/(1+2)R)";
     Some "C(-1+(-2)*(-3)-(-4))";
     Some "C(-1+(-2-3)*(-4))";
     Some "C(-1+(-2)-3*(-4))";
     Some "C(-1+(-1)*2-32/8)";
     Some "C(-1+(-(-1-3))*2-32/8)";
     Some "C(-1+(-(-1-(1+2)))*2-32/8)";
     Some "2D6";
     Some "12D60";
     Some "-2D6";
     Some "2D6";
     Some "2D6+1";
     Some "1+2D6";
     Some "-2D6+1";
     Some "2D6+1";
     Some "2D6+1-1-2-3-4";
     Some "2D6+4D10";
     Some "2D6";
     Some "-2D6";
     Some "2D6";
     Some "2D6*3";
     Some "2D6/2";
     Some "2D6/2U";
     Some "2D6/2R";
     Some "100/2D6+1";
     Some "100/2D6U+1";
     Some "100/2D6R+1";
     Some "100/(2D6+1)+4*5";
     Some "100/(2D6+1)U+4*5";
     Some "100/(2D6+1)R+4*5";
     Some "4D10/2D6+1";
     Some "4D10/2D6U+1";
     Some "4D10/2D6R+1";
     Some "2D10+3-4";
     Some "2D10+3*4";
     Some "2D10/3+4*5-6";
     Some "2D10/3U+4*5-6";
     Some "2D10/3R+4*5-6";
     Some "2D6*3-1D6+1";
     Some "(2+3)D6-1+3D6+2";
     Some "(2*3-4)D6-1D4+1";
     Some "((2+3)*4/3)D6*2+5";
     Some "2D(1+5)";
     Some "(8/2)D(4+6)";
     Some "(2-1)D(8/2)*(1+1)D(3*4/2)+2*3";
     Some "[1...5]D6";
     Some "([2...4]+2)D10";
     Some "[(2+3)...8]D6";
     Some "[5...(7+1)]D6";
     Some "2D[1...5]";
     Some "2D([2...4]+2)";
     Some "2D[(2+3)...8]";
     Some "2D[5...(7+1)]";
     Some "[1...5]D(2*3)";
     Some "(1+1)D[1...5]";
     Some "([1...4]+1)D([2...4]+2)-1";
     Some "2D6=7";
     Some "2D6+1=7";
     Some "1+2D6=7";
     Some "2D6<>7";
     Some "2D6<7";
     Some "2D6>7";
     Some "2D6<=7";
     Some "2D6>=7";
     Some "-2D6<-7";
     Some "-2D6>-7";
     Some "-2D6<=-7";
     Some "-2D6>=-7";
     Some "2B6";
     Some "[1...3]B6";
     Some "2B[4...6]";
     Some "[1...3]B[4...6]";
     Some "(1*2)B6";
     Some "([1...3]+1)B6";
     Some "2B(2+4)";
     Some "2B([3...5]+1)";
     Some "[1...5]B(2*3)";
     Some "(1+1)B[1...5]";
     Some "(1*2)B(2+4)";
     Some "2B6+4B10";
     Some "2B6+3B8+5B12";
     Some "2B6=3";
     Some "2B6<>3";
     Some "2B6>3";
     Some "2B6<3";
     Some "2B6>=3";
     Some "2B6<=3";
     Some "2B6>4-1";
     Some "2B6+4B10>4";
     Some "2B6>-(-1*3)";
     Some "3R6>=4";
     Some "3R6+2R6<=2";
     Some "(3+2)R6>=5";
     Some "1R(2*3)>=4";
     Some "3R6>1*4";
     Some "2R6";
     Some "2R6[5]";
     Some "3R6+2R6[2]";
     Some "6R6[6]>=5";
     Some "6R6[2*3]>=5";
     Some "3U6";
     Some "(1*3)U6";
     Some "3U(5+1)";
     Some "3U6[6]";
     Some "3U6[2+4]";
     Some "3U6+5U6[6]";
     Some "3U6[6]+1";
     Some "3U6[6]-1";
     Some "3U6[6]+1*2";
     Some "3U6[6]+5/2";
     Some "1U100[96]+3";
     Some "3U6[6]=10";
     Some "3U6[6]<>10";
     Some "3U6[6]>10";
     Some "3U6[6]<10";
     Some "3U6[6]>=10";
     Some "3U6[6]<=10";
     Some "3U6[6]>=2+8";
     Some "3U6[6]+1>=10";
     Some "3U6+5U6[6]>=7";
     Some "(5+6)U10[10]+5>=8";
     Some "CHOICE[A,B,C]";
     Some "CHOICE[A,B]";
     Some "CHOICE[A,B,C,D]";
     Some "CHOICE[Call of Cthulhu,Sword World,Double Cross]";
     Some "CHOICE[日本語,でも,だいじょうぶ]";
     Some "CHOICE[1+2,(3*4),5d6]"].
Proof. vm_compute. reflexivity. Qed.
(** core/dice/die_test.go [TestFormatDice] *)
Example test_format_dice :
  [format_dice [Die (2)%Z (6)%Z];
   format_dice [Die (1)%Z (6)%Z; Die (2)%Z (6)%Z; Die (3)%Z (6)%Z; Die (4)%Z (6)%Z; Die (5)%Z (6)%Z; Die (6)%Z (6)%Z];
   format_dice [Die (2)%Z (4)%Z; Die (3)%Z (6)%Z; Die (5)%Z (10)%Z; Die (10)%Z (20)%Z]]
  = ["2/6";
     "1/6, 2/6, 3/6, 4/6, 5/6, 6/6";
     "2/4, 3/6, 5/10, 10/20"].
Proof. vm_compute. reflexivity. Qed.
(** core/dice/die_test.go [TestFormatDiceWithoutSpace] *)
Example test_format_dice_without_spaces :
  [format_dice_without_spaces [Die (2)%Z (6)%Z];
   format_dice_without_spaces [Die (1)%Z (6)%Z; Die (2)%Z (6)%Z; Die (3)%Z (6)%Z; Die (4)%Z (6)%Z; Die (5)%Z (6)%Z; Die (6)%Z (6)%Z];
   format_dice_without_spaces [Die (2)%Z (4)%Z; Die (3)%Z (6)%Z; Die (5)%Z (10)%Z; Die (10)%Z (20)%Z]]
  = ["2/6";
     "1/6,2/6,3/6,4/6,5/6,6/6";
     "2/4,3/6,5/10,10/20"].
Proof. vm_compute. reflexivity. Qed.
Definition rolled (ds : list die) (num sides : Z) : option (list die * feeder) := match roll_dice num sides (FQueue ds) with (Ok l, f) => Some (l, f) | _ => None end.
(** core/dice/roller/roller_test.go [TestDiceRoller_RollDice_Queue] *)
Example test_roll_dice_queue :
  [rolled [Die (1)%Z (6)%Z; Die (2)%Z (6)%Z; Die (3)%Z (6)%Z; Die (4)%Z (6)%Z; Die (5)%Z (6)%Z; Die (6)%Z (6)%Z] (6)%Z (6)%Z;
   rolled [Die (1)%Z (4)%Z; Die (2)%Z (4)%Z; Die (3)%Z (4)%Z; Die (4)%Z (4)%Z] (3)%Z (4)%Z;
   rolled [Die (1)%Z (6)%Z; Die (2)%Z (6)%Z; Die (3)%Z (6)%Z] (4)%Z (6)%Z;
   rolled [] (0)%Z (6)%Z;
   rolled [] (-1)%Z (6)%Z;
   rolled [Die (1)%Z (-6)%Z] (1)%Z (-6)%Z;
   rolled [Die (3)%Z (6)%Z; Die (4)%Z (8)%Z] (2)%Z (6)%Z]
  = [Some (firstn (Z.to_nat (6)%Z) [Die (1)%Z (6)%Z; Die (2)%Z (6)%Z; Die (3)%Z (6)%Z; Die (4)%Z (6)%Z; Die (5)%Z (6)%Z; Die (6)%Z (6)%Z], FQueue (skipn (Z.to_nat (6)%Z) [Die (1)%Z (6)%Z; Die (2)%Z (6)%Z; Die (3)%Z (6)%Z; Die (4)%Z (6)%Z; Die (5)%Z (6)%Z; Die (6)%Z (6)%Z]));
     Some (firstn (Z.to_nat (3)%Z) [Die (1)%Z (4)%Z; Die (2)%Z (4)%Z; Die (3)%Z (4)%Z; Die (4)%Z (4)%Z], FQueue (skipn (Z.to_nat (3)%Z) [Die (1)%Z (4)%Z; Die (2)%Z (4)%Z; Die (3)%Z (4)%Z; Die (4)%Z (4)%Z]));
     None;
     None;
     None;
     None;
     None].
Proof. vm_compute. reflexivity. Qed.
(** core/object/array_test.go [TestArray_Inspect] *)
Example test_inspect_array :
  [inspect (OArray []);
   inspect (OArray [(OInt (1)%Z); (OInt (2)%Z)]);
   inspect (OArray [(OInt (2)%Z); (OInt (3)%Z); (OInt (5)%Z); (OInt (8)%Z); (OInt (13)%Z)])]
  = ["[]";
     "[1, 2]";
     "[2, 3, 5, 8, 13]"].
Proof. vm_compute. reflexivity. Qed.
(** core/object/u_roll_expr_result_test.go [TestURollExprResult_Inspect] *)
Example test_inspect_u_roll_expr_result :
  [inspect (OURollExpr [(OArray [(OInt (3)%Z); (OInt (1)%Z)]); (OArray [(OInt (2)%Z)])] (0)%Z);
   inspect (OURollExpr [(OArray [(OInt (6)%Z); (OInt (1)%Z)]); (OArray [(OInt (3)%Z)]); (OArray [(OInt (1)%Z)])] (1)%Z);
   inspect (OURollExpr [(OArray [(OInt (6)%Z); (OInt (1)%Z)]); (OArray [(OInt (3)%Z)]); (OArray [(OInt (1)%Z)])] (-1)%Z)]
  = ["<URollExprResult ValueGroups=[[3, 1], [2]], Modifier=0>";
     "<URollExprResult ValueGroups=[[6, 1], [3], [1]], Modifier=1>";
     "<URollExprResult ValueGroups=[[6, 1], [3], [1]], Modifier=-1>"].
Proof. vm_compute. reflexivity. Qed.
(** core/object/u_roll_comp_result_test.go [TestURollCompResult_Inspect] *)
Example test_inspect_u_roll_comp_result :
  [inspect (OURollComp [(OArray [(OInt (6)%Z); (OInt (1)%Z)]); (OArray [(OInt (3)%Z)]); (OArray [(OInt (1)%Z)])] (1)%Z (2)%Z);
   inspect (OURollComp [(OArray [(OInt (6)%Z); (OInt (1)%Z)]); (OArray [(OInt (3)%Z)]); (OArray [(OInt (1)%Z)])] (1)%Z (0)%Z)]
  = ["<URollCompResult RollResult=<URollExprResult ValueGroups=[[6, 1], [3], [1]], Modifier=1>, NumOfSuccesses=2>";
     "<URollCompResult RollResult=<URollExprResult ValueGroups=[[6, 1], [3], [1]], Modifier=1>, NumOfSuccesses=0>"].
Proof. vm_compute. reflexivity. Qed.
(** core/object/b_roll_comp_result_test.go [TestBRollCompResult_Inspect] *)
Example test_inspect_b_roll_comp_result :
  [inspect (OBRollComp [(OInt (3)%Z); (OInt (4)%Z)] (1)%Z);
   inspect (OBRollComp [(OInt (3)%Z); (OInt (4)%Z); (OInt (9)%Z); (OInt (7)%Z); (OInt (1)%Z); (OInt (5)%Z)] (3)%Z)]
  = ["<BRollCompResult Values=[3, 4], NumOfSuccesses=1>";
     "<BRollCompResult Values=[3, 4, 9, 7, 1, 5], NumOfSuccesses=3>"].
Proof. vm_compute. reflexivity. Qed.
(** core/object/r_roll_comp_result_test.go [TestRRollCompResult_Inspect] *)
Example test_inspect_r_roll_comp_result :
  [inspect (ORRollComp [(OArray [(OInt (3)%Z); (OInt (1)%Z)]); (OArray [(OInt (2)%Z)])] (1)%Z);
   inspect (ORRollComp [(OArray [(OInt (6)%Z); (OInt (1)%Z)]); (OArray [(OInt (3)%Z)]); (OArray [(OInt (1)%Z)])] (3)%Z)]
  = ["<RRollCompResult ValueGroups=[[3, 1], [2]], NumOfSuccesses=1>";
     "<RRollCompResult ValueGroups=[[6, 1], [3], [1]], NumOfSuccesses=3>"].
Proof. vm_compute. reflexivity. Qed.
(** core/object/integer_test.go [TestInteger_Inspect] *)
Example test_inspect_integer :
  [inspect (OInt (1)%Z);
   inspect (OInt (0)%Z);
   inspect (OInt (-1)%Z);
   inspect (OInt (12)%Z);
   inspect (OInt (12345)%Z)]
  = ["1";
     "0";
     "-1";
     "12";
     "12345"].
Proof. vm_compute. reflexivity. Qed.
(** core/object/boolean_test.go [TestBoolean_Inspect] *)
Example test_inspect_boolean :
  [inspect (OBool true);
   inspect (OBool false)]
  = ["true";
     "false"].
Proof. vm_compute. reflexivity. Qed.
(** core/object/string_test.go [TestString_Inspect] *)
Example test_inspect_string :
  [inspect (OString "Abcde");
   inspect (OString "あいうえお");
   inspect (OString "タブ	入り");
   inspect (OString """ダブルクォート"" 入り")]
  = ["""Abcde""";
     """あいうえお""";
     """タブ\t入り""";
     """\""ダブルクォート\"" 入り"""].
Proof. vm_compute. reflexivity. Qed.
(** core/object/array_test.go [TestArray_InspectWithoutSpaces] *)
Example test_array_inspect_without_spaces :
  [inspect_without_spaces (OArray []);
   inspect_without_spaces (OArray [(OInt (1)%Z); (OInt (2)%Z)]);
   inspect_without_spaces (OArray [(OInt (2)%Z); (OInt (3)%Z); (OInt (5)%Z); (OInt (8)%Z); (OInt (13)%Z)]);
   inspect_without_spaces (OArray [(OArray [(OInt (1)%Z); (OInt (2)%Z)]); (OArray [(OInt (3)%Z); (OInt (4)%Z)])])]
  = ["[]";
     "[1,2]";
     "[2,3,5,8,13]";
     "[[1,2],[3,4]]"].
Proof. vm_compute. reflexivity. Qed.
(** core/object/array_test.go [TestArray_JoinedElements] *)
Example test_array_joined_elements :
  [joined_elements "" [];
   joined_elements "," [(OInt (1)%Z); (OInt (2)%Z)];
   joined_elements "," [(OInt (2)%Z); (OInt (3)%Z); (OInt (5)%Z); (OInt (8)%Z); (OInt (13)%Z)];
   joined_elements "/" [(OInt (1)%Z); (OInt (2)%Z)];
   joined_elements "/" [(OInt (2)%Z); (OInt (3)%Z); (OInt (5)%Z); (OInt (8)%Z); (OInt (13)%Z)]]
  = ["";
     "1,2";
     "2,3,5,8,13";
     "1/2";
     "2/3/5/8/13"].
Proof. vm_compute. reflexivity. Qed.
(** core/object/array_test.go [TestArray_MaxInteger] *)
Example test_array_max_integer :
  [max_integer [];
   max_integer [(OInt (1)%Z); (OString "str")];
   max_integer [(OInt (1)%Z)];
   max_integer [(OInt (1)%Z); (OInt (2)%Z)];
   max_integer [(OInt (2)%Z); (OInt (1)%Z)];
   max_integer [(OInt (2)%Z); (OInt (3)%Z); (OInt (5)%Z); (OInt (8)%Z); (OInt (13)%Z)];
   max_integer [(OInt (3)%Z); (OInt (2)%Z); (OInt (8)%Z); (OInt (13)%Z); (OInt (5)%Z)]]
  = [Some (0)%Z;
     None;
     Some (1)%Z;
     Some (2)%Z;
     Some (2)%Z;
     Some (13)%Z;
     Some (13)%Z].
Proof. vm_compute. reflexivity. Qed.
(** core/object/array_test.go [TestArray_SumOfIntegers] *)
Example test_array_sum_of_integers :
  [sum_of_integers [];
   sum_of_integers [(OInt (1)%Z); (OString "str")];
   sum_of_integers [(OInt (1)%Z)];
   sum_of_integers [(OInt (1)%Z); (OInt (2)%Z)];
   sum_of_integers [(OInt (2)%Z); (OInt (3)%Z); (OInt (5)%Z); (OInt (8)%Z); (OInt (13)%Z)]]
  = [Some (0)%Z;
     None;
     Some (1)%Z;
     Some (3)%Z;
     Some (31)%Z].
Proof. vm_compute. reflexivity. Qed.
(** core/object/u_roll_expr_result_test.go [TestURollExprResult_MaxValue] *)
Example test_u_max_value :
  [max_value [(OArray [(OInt (3)%Z); (OInt (1)%Z)]); (OArray [(OInt (2)%Z)])] (0)%Z;
   max_value [(OArray [(OInt (6)%Z); (OInt (1)%Z)]); (OArray [(OInt (3)%Z)]); (OArray [(OInt (1)%Z)])] (1)%Z;
   max_value [(OArray [(OInt (6)%Z); (OInt (1)%Z)]); (OArray [(OInt (3)%Z)]); (OArray [(OInt (1)%Z)])] (-1)%Z;
   max_value [(OArray [(OInt (3)%Z)]); (OArray [(OInt (5)%Z)]); (OArray [(OInt (3)%Z)]); (OArray [(OInt (6)%Z); (OInt (4)%Z)]); (OArray [(OInt (1)%Z)]); (OArray [(OInt (6)%Z); (OInt (6)%Z); (OInt (3)%Z)]); (OArray [(OInt (5)%Z)]); (OArray [(OInt (1)%Z)])] (0)%Z]
  = [Some (4)%Z;
     Some (8)%Z;
     Some (6)%Z;
     Some (15)%Z].
Proof. vm_compute. reflexivity. Qed.
(** core/object/u_roll_expr_result_test.go [TestURollExprResult_SumOfValues] *)
Example test_u_sum_of_values :
  [sum_of_values [(OArray [(OInt (3)%Z); (OInt (1)%Z)]); (OArray [(OInt (2)%Z)])] (0)%Z;
   sum_of_values [(OArray [(OInt (6)%Z); (OInt (1)%Z)]); (OArray [(OInt (3)%Z)]); (OArray [(OInt (1)%Z)])] (1)%Z;
   sum_of_values [(OArray [(OInt (6)%Z); (OInt (1)%Z)]); (OArray [(OInt (3)%Z)]); (OArray [(OInt (1)%Z)])] (-1)%Z;
   sum_of_values [(OArray [(OInt (3)%Z)]); (OArray [(OInt (5)%Z)]); (OArray [(OInt (3)%Z)]); (OArray [(OInt (6)%Z); (OInt (4)%Z)]); (OArray [(OInt (1)%Z)]); (OArray [(OInt (6)%Z); (OInt (6)%Z); (OInt (3)%Z)]); (OArray [(OInt (5)%Z)]); (OArray [(OInt (1)%Z)])] (0)%Z]
  = [Some (6)%Z;
     Some (12)%Z;
     Some (10)%Z;
     Some (43)%Z].
Proof. vm_compute. reflexivity. Qed.
(** core/object/u_roll_expr_result_test.go [TestURollExprResult_SumOfGroups] *)
Example test_u_sum_of_groups :
  [sum_of_groups [(OArray [(OInt (3)%Z); (OInt (1)%Z)]); (OArray [(OInt (2)%Z)])];
   sum_of_groups [(OArray [(OInt (6)%Z); (OInt (1)%Z)]); (OArray [(OInt (3)%Z)]); (OArray [(OInt (1)%Z)])];
   sum_of_groups [(OArray [(OInt (6)%Z); (OInt (1)%Z)]); (OArray [(OInt (3)%Z)]); (OArray [(OInt (1)%Z)])];
   sum_of_groups [(OArray [(OInt (3)%Z)]); (OArray [(OInt (5)%Z)]); (OArray [(OInt (3)%Z)]); (OArray [(OInt (6)%Z); (OInt (4)%Z)]); (OArray [(OInt (1)%Z)]); (OArray [(OInt (6)%Z); (OInt (6)%Z); (OInt (3)%Z)]); (OArray [(OInt (5)%Z)]); (OArray [(OInt (1)%Z)])]]
  = [Ok [(4)%Z; (2)%Z];
     Ok [(7)%Z; (3)%Z; (1)%Z];
     Ok [(7)%Z; (3)%Z; (1)%Z];
     Ok [(3)%Z; (5)%Z; (3)%Z; (10)%Z; (1)%Z; (15)%Z; (5)%Z; (1)%Z]].
Proof. vm_compute. reflexivity. Qed.
(** core/object/object_test.go [TestObject_Type] *)
Example test_object_type :
  [obj_type (OInt 0);
   obj_type (OBool false);
   obj_type (OString "");
   obj_type (OArray []);
   obj_type (OBRollComp [] 0);
   obj_type (ORRollComp [] 0);
   obj_type (OURollExpr [] 0);
   obj_type (OURollComp [] 0 0)]
  = ["INTEGER";
     "BOOLEAN";
     "STRING";
     "ARRAY";
     "B_ROLL_COMP_RESULT";
     "R_ROLL_COMP_RESULT";
     "U_ROLL_EXPR_RESULT";
     "U_ROLL_COMP_RESULT"].
Proof. vm_compute. reflexivity. Qed.
(** core/ast/node_test.go [TestNode_Type] *)
Example test_node_type :
  [node_type (NCommand CDRollExpr NNull);
   node_type (NCommand CDRollComp NNull);
   node_type (NBRollList []);
   node_type (NCommand CBRollComp NNull);
   node_type (NRRollList [] NNull);
   node_type (NURollExpr [] NNull None);
   node_type (NCommand CURollComp NNull);
   node_type (NCommand CCalc NNull);
   node_type (NChoice []);
   node_type (NNeg NNull);
   node_type (NInfix (OpCmp "") NNull NNull);
   node_type (NInfix OpAdd NNull NNull);
   node_type (NInfix OpSub NNull NNull);
   node_type (NInfix OpMul NNull NNull);
   node_type (NInfix (OpDiv RoundUp) NNull NNull);
   node_type (NInfix (OpDiv RoundHalf) NNull NNull);
   node_type (NInfix (OpDiv RoundDown) NNull NNull);
   node_type (NInfix (OpVar KD) NNull NNull);
   node_type (NInfix (OpVar KB) NNull NNull);
   node_type (NInfix (OpVar KR) NNull NNull);
   node_type (NInfix (OpVar KU) NNull NNull);
   node_type (NInfix (OpVar KRand) NNull NNull);
   node_type (NInt (0)%Z);
   node_type (NString "");
   node_type NNil;
   node_type (NSumRoll [])]
  = ["DRollExpr";
     "DRollComp";
     "BRollList";
     "BRollComp";
     "RRollList";
     "URollExpr";
     "URollComp";
     "Calc";
     "Choice";
     "UnaryMinus";
     "Compare";
     "Add";
     "Subtract";
     "Multiply";
     "DivideWithRoundingUp";
     "DivideWithRounding";
     "DivideWithRoundingDown";
     "DRoll";
     "BRoll";
     "RRoll";
     "URoll";
     "RandomNumber";
     "Int";
     "String";
     "Nil";
     "SumRollResult"].
Proof. vm_compute. reflexivity. Qed.
(** core/ast/node_test.go [TestNode_IsNil] *)
Example test_node_is_nil :
  [is_nil (NCommand CDRollExpr NNull);
   is_nil (NCommand CDRollComp NNull);
   is_nil (NBRollList []);
   is_nil (NCommand CBRollComp NNull);
   is_nil (NRRollList [] NNull);
   is_nil (NURollExpr [] NNull None);
   is_nil (NCommand CURollComp NNull);
   is_nil (NCommand CCalc NNull);
   is_nil (NChoice []);
   is_nil (NNeg NNull);
   is_nil (NInfix (OpCmp "") NNull NNull);
   is_nil (NInfix OpAdd NNull NNull);
   is_nil (NInfix OpSub NNull NNull);
   is_nil (NInfix OpMul NNull NNull);
   is_nil (NInfix (OpDiv RoundUp) NNull NNull);
   is_nil (NInfix (OpDiv RoundHalf) NNull NNull);
   is_nil (NInfix (OpDiv RoundDown) NNull NNull);
   is_nil (NInfix (OpVar KD) NNull NNull);
   is_nil (NInfix (OpVar KB) NNull NNull);
   is_nil (NInfix (OpVar KR) NNull NNull);
   is_nil (NInfix (OpVar KRand) NNull NNull);
   is_nil (NInt (0)%Z);
   is_nil (NString "");
   is_nil NNil;
   is_nil (NSumRoll [])]
  = [false;
     false;
     false;
     false;
     false;
     false;
     false;
     false;
     false;
     false;
     false;
     false;
     false;
     false;
     false;
     false;
     false;
     false;
     false;
     false;
     false;
     false;
     false;
     true;
     false].
Proof. vm_compute. reflexivity. Qed.
(** core/ast/node_test.go [TestNode_IsPrimaryExpression] *)
Example test_node_is_primary :
  [is_primary (NCommand CDRollExpr NNull);
   is_primary (NCommand CDRollComp NNull);
   is_primary (NBRollList []);
   is_primary (NCommand CBRollComp NNull);
   is_primary (NRRollList [] NNull);
   is_primary (NURollExpr [] NNull None);
   is_primary (NCommand CCalc NNull);
   is_primary (NChoice []);
   is_primary (NNeg NNull);
   is_primary (NInfix (OpCmp "") NNull NNull);
   is_primary (NInfix OpAdd NNull NNull);
   is_primary (NInfix OpSub NNull NNull);
   is_primary (NInfix OpMul NNull NNull);
   is_primary (NInfix (OpDiv RoundUp) NNull NNull);
   is_primary (NInfix (OpDiv RoundHalf) NNull NNull);
   is_primary (NInfix (OpDiv RoundDown) NNull NNull);
   is_primary (NInfix (OpVar KD) NNull NNull);
   is_primary (NInfix (OpVar KB) NNull NNull);
   is_primary (NInfix (OpVar KR) NNull NNull);
   is_primary (NInfix (OpVar KRand) NNull NNull);
   is_primary (NInt (0)%Z);
   is_primary (NString "");
   is_primary NNil;
   is_primary (NSumRoll [])]
  = [false;
     false;
     false;
     false;
     false;
     false;
     false;
     false;
     false;
     false;
     false;
     false;
     false;
     false;
     false;
     false;
     true;
     true;
     true;
     true;
     true;
     true;
     true;
     true].
Proof. vm_compute. reflexivity. Qed.
(** core/ast/node_test.go [TestNode_IsVariable] *)
Example test_node_is_variable :
  [is_variable NNil;
   is_variable (NInt (42)%Z);
   is_variable (NInfix (OpVar KD) (NInt (2)%Z) (NInt (6)%Z));
   is_variable (NInfix (OpVar KB) (NInt (2)%Z) (NInt (6)%Z));
   is_variable (NInfix (OpVar KR) (NInt (2)%Z) (NInt (6)%Z));
   is_variable (NInfix (OpVar KU) (NInt (2)%Z) (NInt (6)%Z));
   is_variable (NInfix (OpVar KRand) (NInt (3)%Z) (NInt (5)%Z));
   is_variable (NNeg (NInt (1)%Z));
   is_variable (NNeg (NInfix (OpVar KD) (NInt (2)%Z) (NInt (6)%Z)));
   is_variable (NInfix OpAdd (NInt (1)%Z) (NInt (2)%Z));
   is_variable (NInfix OpAdd (NInfix (OpVar KD) (NInt (2)%Z) (NInt (6)%Z)) (NInt (1)%Z));
   is_variable (NInfix OpAdd (NInt (1)%Z) (NInfix (OpVar KD) (NInt (2)%Z) (NInt (6)%Z)));
   is_variable (NInfix OpAdd (NInfix (OpVar KD) (NInt (2)%Z) (NInt (6)%Z)) (NInfix (OpVar KD) (NInt (3)%Z) (NInt (10)%Z)));
   is_variable (NCommand CCalc (NInfix OpAdd (NInt (1)%Z) (NInt (2)%Z)));
   is_variable (NCommand CDRollExpr (NInfix OpAdd (NInfix (OpVar KD) (NInt (2)%Z) (NInt (6)%Z)) (NInt (1)%Z)));
   is_variable (NCommand CDRollComp (NInfix (OpCmp ">") (NInfix (OpVar KD) (NInt (2)%Z) (NInt (6)%Z)) (NInt (7)%Z)));
   is_variable (NBRollList [VRoll KB (NInt (2)%Z) (NInt (6)%Z)]);
   is_variable (NCommand CBRollComp (NInfix (OpCmp ">") (NBRollList [VRoll KB (NInt (2)%Z) (NInt (6)%Z)]) (NInt (7)%Z)));
   is_variable (NRRollList [VRoll KR (NInt (2)%Z) (NInt (6)%Z)] NNil);
   is_variable (NCommand CRRollComp (NInfix (OpCmp ">=") (NRRollList [VRoll KR (NInt (2)%Z) (NInt (6)%Z)] NNil) (NInt (3)%Z)));
   is_variable (NURollExpr [VRoll KU (NInt (2)%Z) (NInt (6)%Z)] NNil None);
   is_variable (NURollExpr [VRoll KU (NInt (2)%Z) (NInt (6)%Z)] NNil (Some (Bonus OpAdd NNull (NInt (1)%Z))));
   is_variable (NCommand CURollComp (NInfix (OpCmp ">=") (NURollExpr [VRoll KU (NInt (3)%Z) (NInt (6)%Z)] (NInt (6)%Z) None) (NInt (10)%Z)));
   is_variable (NRRollList [VRoll KU (NInt (2)%Z) (NInt (6)%Z)] NNil);
   is_variable (NString "hello");
   is_variable (NChoice ["hello"])]
  = [false;
     false;
     true;
     true;
     true;
     true;
     true;
     false;
     true;
     false;
     true;
     true;
     true;
     false;
     true;
     true;
     true;
     true;
     true;
     true;
     true;
     true;
     true;
     true;
     false;
     true].
Proof. vm_compute. reflexivity. Qed.
Definition dice_parsed (s : string) : option (list die) := match parse_dice s with Ok l => Some l | _ => None end.
(** dicebot/testing/testcase_test.go [TestParseDice] *)
Example test_parse_dice :
  [dice_parsed "1";
   dice_parsed "1/6,1";
   dice_parsed "a1/6";
   dice_parsed "";
   dice_parsed "1/6";
   dice_parsed "1/6,2/6,3/6";
   dice_parsed "1/6, 2/6, 3/6"]
  = [None;
     None;
     None;
     Some [];
     Some [Die (1)%Z (6)%Z];
     Some [Die (1)%Z (6)%Z; Die (2)%Z (6)%Z; Die (3)%Z (6)%Z];
     Some [Die (1)%Z (6)%Z; Die (2)%Z (6)%Z; Die (3)%Z (6)%Z]].
Proof. vm_compute. reflexivity. Qed.
Definition case_parsed (s id : string) (i : Z) : option test_case := match parse_test_case s id i with Ok c => Some c | _ => None end.
Definition file_parsed (s id : string) : option (list test_case) := match parse_file s id with Ok c => Some c | _ => None end.
(** dicebot/testing/testcase_test.go [TestParse] *)
Example test_parse :
  [case_parsed "" "" 0%Z;
   case_parsed "input:" "" 0%Z;
   case_parsed "input:
2d6+1-1-2-3-4
output:
DiceBot : (2D6+1-1-2-3-4) ＞ 5[4,1]+1-1-2-3-4 ＞ -4
rand:4/6,1/6" "DiceBot" (1)%Z;
   case_parsed "input:
S2d6
output:
DiceBot : (2D6) ＞ 5[4,1] ＞ 5###secret dice###
rand:4/6,1/6" "DiceBot" (2)%Z;
   case_parsed "input:
GETSST
output:
Satasupe : サタスペ作成：ベース部品：「大型の金属製の筒」  アクセサリ部品：「ガスボンベや殺虫剤」
部品効果：「命中：8、ダメージ：5、耐久度3、両手」「爆発3」
完成品：サタスペ  （ダメージ＋5・命中8・射撃、「両手」「爆発3」「サタスペ1」「耐久度3」）
rand:6/6,6/6,6/6" "Satasupe" (1)%Z;
   case_parsed "input:
CCT
output:
GranCrest : 国特徴・文化表(13) ＞ 禁欲的
あなたの国民は、道徳を重んじ、常に自分の欲望を制限することが理想的だと考えている。
食料＋４、資金－１
rand:1/6,3/6" "GranCrest" (1)%Z]
  = [None;
     None;
     Some (TestCase.TestCase "DiceBot" (1)%Z ["2d6+1-1-2-3-4"] "DiceBot : (2D6+1-1-2-3-4) ＞ 5[4,1]+1-1-2-3-4 ＞ -4" [Die (4)%Z (6)%Z; Die (1)%Z (6)%Z]);
     Some (TestCase.TestCase "DiceBot" (2)%Z ["S2d6"] "DiceBot : (2D6) ＞ 5[4,1] ＞ 5###secret dice###" [Die (4)%Z (6)%Z; Die (1)%Z (6)%Z]);
     Some (TestCase.TestCase "Satasupe" (1)%Z ["GETSST"] "Satasupe : サタスペ作成：ベース部品：「大型の金属製の筒」  アクセサリ部品：「ガスボンベや殺虫剤」
部品効果：「命中：8、ダメージ：5、耐久度3、両手」「爆発3」
完成品：サタスペ  （ダメージ＋5・命中8・射撃、「両手」「爆発3」「サタスペ1」「耐久度3」）" [Die (6)%Z (6)%Z; Die (6)%Z (6)%Z; Die (6)%Z (6)%Z]);
     Some (TestCase.TestCase "GranCrest" (1)%Z ["CCT"] "GranCrest : 国特徴・文化表(13) ＞ 禁欲的
あなたの国民は、道徳を重んじ、常に自分の欲望を制限することが理想的だと考えている。
食料＋４、資金－１" [Die (1)%Z (6)%Z; Die (3)%Z (6)%Z])].
Proof. vm_compute. reflexivity. Qed.
(** dicebot/testing/testcase_test.go [TestParseFile] *)
Example test_parse_file :
  [file_parsed "input:
2d6+1-1-2-3-4
output:
DiceBot : (2D6+1-1-2-3-4) ＞ 5[4,1]+1-1-2-3-4 ＞ -4
rand:4/6,1/6
============================
input:
S2d6
output:
DiceBot : (2D6) ＞ 5[4,1] ＞ 5###secret dice###
rand:4/6,1/6
============================
input:
4d10
output:
4d10 : (4D10) ＞ 18[3,2,5,8] ＞ 18
rand:3/10,2/10,5/10,8/10
============================
input:
2R6
output:
DiceBot : 2R6 ＞ 条件が間違っています。2R6>=5 あるいは 2R6[5] のように振り足し目標値を指定してください。
rand:
" "DiceBot";
   file_parsed "input:
GETSST
output:
Satasupe : サタスペ作成：ベース部品：「大型の金属製の筒」  アクセサリ部品：「ガスボンベや殺虫剤」
部品効果：「命中：8、ダメージ：5、耐久度3、両手」「爆発3」
完成品：サタスペ  （ダメージ＋5・命中8・射撃、「両手」「爆発3」「サタスペ1」「耐久度3」）
rand:6/6,6/6,6/6
============================
input:
CCT
output:
GranCrest : 国特徴・文化表(13) ＞ 禁欲的
あなたの国民は、道徳を重んじ、常に自分の欲望を制限することが理想的だと考えている。
食料＋４、資金－１
rand:1/6,3/6
" "multiline"]
  = [Some [(TestCase.TestCase "DiceBot" (1)%Z ["2d6+1-1-2-3-4"] "DiceBot : (2D6+1-1-2-3-4) ＞ 5[4,1]+1-1-2-3-4 ＞ -4" [Die (4)%Z (6)%Z; Die (1)%Z (6)%Z]); (TestCase.TestCase "DiceBot" (2)%Z ["S2d6"] "DiceBot : (2D6) ＞ 5[4,1] ＞ 5###secret dice###" [Die (4)%Z (6)%Z; Die (1)%Z (6)%Z]); (TestCase.TestCase "DiceBot" (3)%Z ["4d10"] "4d10 : (4D10) ＞ 18[3,2,5,8] ＞ 18" [Die (3)%Z (10)%Z; Die (2)%Z (10)%Z; Die (5)%Z (10)%Z; Die (8)%Z (10)%Z]); (TestCase.TestCase "DiceBot" (4)%Z ["2R6"] "DiceBot : 2R6 ＞ 条件が間違っています。2R6>=5 あるいは 2R6[5] のように振り足し目標値を指定してください。" [])];
     Some [(TestCase.TestCase "multiline" (1)%Z ["GETSST"] "Satasupe : サタスペ作成：ベース部品：「大型の金属製の筒」  アクセサリ部品：「ガスボンベや殺虫剤」
部品効果：「命中：8、ダメージ：5、耐久度3、両手」「爆発3」
完成品：サタスペ  （ダメージ＋5・命中8・射撃、「両手」「爆発3」「サタスペ1」「耐久度3」）" [Die (6)%Z (6)%Z; Die (6)%Z (6)%Z; Die (6)%Z (6)%Z]); (TestCase.TestCase "multiline" (2)%Z ["CCT"] "GranCrest : 国特徴・文化表(13) ＞ 禁欲的
あなたの国民は、道徳を重んじ、常に自分の欲望を制限することが理想的だと考えている。
食料＋４、資金－１" [Die (1)%Z (6)%Z; Die (3)%Z (6)%Z])]].
Proof. vm_compute. reflexivity. Qed.
