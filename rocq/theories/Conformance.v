(** Conformance tests (tests, not proofs): the project's own test data, run on the model.
    Generated from /repo/pkg/dicebot/gamesystem/basic/testdata, /repo/pkg/core/parser/parser_test.go. *)
From Verif Require Import Repl.
Open Scope string_scope.

Definition passed (v : verdict) : bool := match v with Passed => true | _ => false end.
Definition all_pass (content : string) : list (Z * verdict) :=
  match parse_file content "DiceBot" with
  | Ok cs => filter (fun p => negb (passed (snd p))) (map (fun c => (tc_index c, run_test_case c)) cs)
  | _ => [((-1)%Z, Crashed)]
  end.
(** pkg/dicebot/gamesystem/basic/testdata/b_roll_comp.txt *)
Definition data_b_roll_comp : string := "input:
2b6=3
output:
DiceBot : (2B6=3) ＞ 3,4 ＞ 成功数1
rand:3/6,4/6
============================
input:
2b6=3
output:
DiceBot : (2B6=3) ＞ 2,1 ＞ 成功数0
rand:2/6,1/6
============================
input:
2b6<>3
output:
DiceBot : (2B6<>3) ＞ 3,4 ＞ 成功数1
rand:3/6,4/6
============================
input:
2b6<>3
output:
DiceBot : (2B6<>3) ＞ 2,1 ＞ 成功数2
rand:2/6,1/6
============================
input:
2b6>3
output:
DiceBot : (2B6>3) ＞ 3,4 ＞ 成功数1
rand:3/6,4/6
============================
input:
2b6>3
output:
DiceBot : (2B6>3) ＞ 2,1 ＞ 成功数0
rand:2/6,1/6
============================
input:
2b6<3
output:
DiceBot : (2B6<3) ＞ 3,4 ＞ 成功数0
rand:3/6,4/6
============================
input:
2b6<3
output:
DiceBot : (2B6<3) ＞ 2,1 ＞ 成功数2
rand:2/6,1/6
============================
input:
2b6>=3
output:
DiceBot : (2B6>=3) ＞ 3,4 ＞ 成功数2
rand:3/6,4/6
============================
input:
2b6>=3
output:
DiceBot : (2B6>=3) ＞ 2,1 ＞ 成功数0
rand:2/6,1/6
============================
input:
2b6<=3
output:
DiceBot : (2B6<=3) ＞ 3,4 ＞ 成功数1
rand:3/6,4/6
============================
input:
2b6<=3
output:
DiceBot : (2B6<=3) ＞ 2,1 ＞ 成功数2
rand:2/6,1/6
============================
input:
2b6+4b10>3
output:
DiceBot : (2B6+4B10>3) ＞ 3,4,9,7,1,5 ＞ 成功数4
rand:3/6,4/6,9/10,7/10,1/10,5/10
============================
input:
2b6+4b10>3
output:
DiceBot : (2B6+4B10>3) ＞ 3,2,5,7,1,3 ＞ 成功数2
rand:3/6,2/6,5/10,7/10,1/10,3/10
============================
input:
2b6+3b8+5b12<5
output:
DiceBot : (2B6+3B8+5B12<5) ＞ 5,2,7,3,4,11,9,8,12,6 ＞ 成功数3
rand:5/6,2/6,7/8,3/8,4/8,11/12,9/12,8/12,12/12,6/12
============================
input:
2b6+3b8+5b12<5
output:
DiceBot : (2B6+3B8+5B12<5) ＞ 3,4,7,1,5,11,3,4,10,9 ＞ 成功数5
rand:3/6,4/6,7/8,1/8,5/8,11/12,3/12,4/12,10/12,9/12
============================
input:
[1...3]b6>3
output:
DiceBot : (1B6>3) ＞ 5 ＞ 成功数1
rand:1/3,5/6
============================
input:
[1...3]b6>3
output:
DiceBot : (3B6>3) ＞ 2,4,6 ＞ 成功数2
rand:3/3,2/6,4/6,6/6
============================
input:
2b[4...6]>3
output:
DiceBot : (2B4>3) ＞ 3,4 ＞ 成功数1
rand:1/3,3/4,4/4
============================
input:
2b[4...6]>3
output:
DiceBot : (2B5>3) ＞ 5,1 ＞ 成功数1
rand:2/3,5/5,1/5
============================
input:
[1...3]b[4...6]>3
output:
DiceBot : (3B6>3) ＞ 6,4,3 ＞ 成功数2
rand:3/3,3/3,6/6,4/6,3/6
============================
input:
(1*2)b6>3
output:
DiceBot : (2B6>3) ＞ 3,4 ＞ 成功数1
rand:3/6,4/6
============================
input:
([1...3]+1)b6>3
output:
DiceBot : (3B6>3) ＞ 2,4,3 ＞ 成功数1
rand:2/3,2/6,4/6,3/6
============================
input:
2b(2+4)>3
output:
DiceBot : (2B6>3) ＞ 3,4 ＞ 成功数1
rand:3/6,4/6
============================
input:
2b([3...5]+1)>3
output:
DiceBot : (2B5>3) ＞ 1,3 ＞ 成功数0
rand:2/3,1/5,3/5
============================
input:
(1*2)b(2+4)>3
output:
DiceBot : (2B6>3) ＞ 4,3 ＞ 成功数1
rand:4/6,3/6
============================
input:
2b6>=1+3
output:
DiceBot : (2B6>=4) ＞ 4,3 ＞ 成功数1
rand:4/6,3/6
".
Example conform_b_roll_comp : all_pass data_b_roll_comp = [].
Proof. vm_compute. reflexivity. Qed.

(** pkg/dicebot/gamesystem/basic/testdata/b_roll_list.txt *)
Definition data_b_roll_list : string := "input:
2b6
output:
DiceBot : (2B6) ＞ 3,4
rand:3/6,4/6
============================
input:
2b6
output:
DiceBot : (2B6) ＞ 6,1
rand:6/6,1/6
============================
input:
[1...3]b6
output:
DiceBot : (1B6) ＞ 5
rand:1/3,5/6
============================
input:
[1...3]b6
output:
DiceBot : (3B6) ＞ 2,4,6
rand:3/3,2/6,4/6,6/6
============================
input:
2b[4...6]
output:
DiceBot : (2B4) ＞ 3,4
rand:1/3,3/4,4/4
============================
input:
2b[4...6]
output:
DiceBot : (2B5) ＞ 5,1
rand:2/3,5/5,1/5
============================
input:
[1...3]b[4...6]
output:
DiceBot : (3B6) ＞ 6,4,3
rand:3/3,3/3,6/6,4/6,3/6
============================
input:
(1*2)b6
output:
DiceBot : (2B6) ＞ 3,4
rand:3/6,4/6
============================
input:
([1...3]+1)b6
output:
DiceBot : (3B6) ＞ 2,4,3
rand:2/3,2/6,4/6,3/6
============================
input:
2b(2+4)
output:
DiceBot : (2B6) ＞ 3,4
rand:3/6,4/6
============================
input:
2b([3...5]+1)
output:
DiceBot : (2B5) ＞ 1,3
rand:2/3,1/5,3/5
============================
input:
[1...5]b(2*3)
output:
DiceBot : (5B6) ＞ 3,5,1,5,6
rand:5/5,3/6,5/6,1/6,5/6,6/6
============================
input:
(1+1)b[1...5]
output:
DiceBot : (2B4) ＞ 3,4
rand:4/5,3/4,4/4
============================
input:
(1*2)b(2+4)
output:
DiceBot : (2B6) ＞ 4,3
rand:4/6,3/6
============================
input:
2b6+4b10
output:
DiceBot : (2B6+4B10) ＞ 1,3,1,10,3,1
rand:1/6,3/6,1/10,10/10,3/10,1/10
============================
input:
2b6+4b10
output:
DiceBot : (2B6+4B10) ＞ 3,2,5,7,1,3
rand:3/6,2/6,5/10,7/10,1/10,3/10
============================
input:
2b6+3b8+5b12
output:
DiceBot : (2B6+3B8+5B12) ＞ 3,4,7,1,5,11,3,4,10,9
rand:3/6,4/6,7/8,1/8,5/8,11/12,3/12,4/12,10/12,9/12
".
Example conform_b_roll_list : all_pass data_b_roll_list = [].
Proof. vm_compute. reflexivity. Qed.

(** pkg/dicebot/gamesystem/basic/testdata/calc.txt *)
Definition data_calc : string := "input:
C(1+2)
output:
DiceBot : C(1+2) ＞ 計算結果 ＞ 3
rand:
============================
input:
C(2-1)
output:
DiceBot : C(2-1) ＞ 計算結果 ＞ 1
rand:
============================
input:
C(1-2)
output:
DiceBot : C(1-2) ＞ 計算結果 ＞ -1
rand:
============================
input:
C(2*3)
output:
DiceBot : C(2*3) ＞ 計算結果 ＞ 6
rand:
============================
input:
C(6/2)
output:
DiceBot : C(6/2) ＞ 計算結果 ＞ 3
rand:
============================
input:
C(2/3)
output:
DiceBot : C(2/3) ＞ 計算結果 ＞ 0
rand:
============================
input:
C(12/3-2*6)
output:
DiceBot : C(12/3-2*6) ＞ 計算結果 ＞ -8
rand:
============================
input:
C(99/21*11-23+57/3*7+13-17)
output:
DiceBot : C(99/21*11-23+57/3*7+13-17) ＞ 計算結果 ＞ 150
rand:
============================
input:
C(20+10)
output:
DiceBot : C(20+10) ＞ 計算結果 ＞ 30
rand:
============================
input:
C(10*5)
output:
DiceBot : C(10*5) ＞ 計算結果 ＞ 50
rand:
============================
input:
c(30-10/2)
output:
DiceBot : C(30-10/2) ＞ 計算結果 ＞ 25
rand:
============================
input:
c((10+10)*9)
output:
DiceBot : C((10+10)*9) ＞ 計算結果 ＞ 180
rand:
============================
input:
C(10+5) mokekeke
output:
DiceBot : C(10+5) ＞ 計算結果 ＞ 15
rand:
============================
input:
C(10/2+(5*2)-(3+1))
output:
DiceBot : C(10/2+5*2-(3+1)) ＞ 計算結果 ＞ 11
rand:
============================
input:
C(5-(1-2))
output:
DiceBot : C(5-(1-2)) ＞ 計算結果 ＞ 6
rand:
============================
input:
C(10/2)
output:
DiceBot : C(10/2) ＞ 計算結果 ＞ 5
rand:
============================
input:
C(-1-1)
output:
DiceBot : C(-1-1) ＞ 計算結果 ＞ -2
rand:
============================
input:
C(-1--1)
output:
DiceBot : C(-1-(-1)) ＞ 計算結果 ＞ 0
rand:
============================
input:
C(-1---1)
output:
DiceBot : C(-1-(-(-1))) ＞ 計算結果 ＞ -2
rand:
============================
input:
C(-1----1)
output:
DiceBot : C(-1-(-(-(-1)))) ＞ 計算結果 ＞ 0
rand:
============================
input:
C(-1)
output:
DiceBot : C(-1) ＞ 計算結果 ＞ -1
rand:
============================
input:
C((-1)*(-1))
output:
DiceBot : C(-1*(-1)) ＞ 計算結果 ＞ 1
rand:
============================
input:
C(-1*-1)
output:
DiceBot : C(-1*(-1)) ＞ 計算結果 ＞ 1
rand:
============================
input:
C(5/-1)
output:
DiceBot : C(5/(-1)) ＞ 計算結果 ＞ -5
rand:
============================
input:
C(10/2)
output:
DiceBot : C(10/2) ＞ 計算結果 ＞ 5
rand:
============================
input:
C(1+(128/2)/2)
output:
DiceBot : C(1+128/2/2) ＞ 計算結果 ＞ 33
rand:
============================
input:
C(-1+-1)
output:
DiceBot : C(-1+(-1)) ＞ 計算結果 ＞ -2
rand:
============================
input:
C(-1+-1*2-32/8)
output:
DiceBot : C(-1+(-1)*2-32/8) ＞ 計算結果 ＞ -7
rand:
============================
input:
C(-20/-10)
output:
DiceBot : C(-20/(-10)) ＞ 計算結果 ＞ 2
rand:
============================
input:
C(-20/5)
output:
DiceBot : C(-20/5) ＞ 計算結果 ＞ -4
rand:
============================
input:
C(20/-4)
output:
DiceBot : C(20/(-4)) ＞ 計算結果 ＞ -5
rand:
============================
input:
C(5)
output:
DiceBot : C(5) ＞ 計算結果 ＞ 5
rand:
============================
input:
C(10)
output:
DiceBot : C(10) ＞ 計算結果 ＞ 10
rand:
============================
input:
C(42)
output:
DiceBot : C(42) ＞ 計算結果 ＞ 42
rand:
============================
input:
C(65535)
output:
DiceBot : C(65535) ＞ 計算結果 ＞ 65535
rand:
============================
input:
C(-5)
output:
DiceBot : C(-5) ＞ 計算結果 ＞ -5
rand:
============================
input:
C(-10)
output:
DiceBot : C(-10) ＞ 計算結果 ＞ -10
rand:
============================
input:
C(-42)
output:
DiceBot : C(-42) ＞ 計算結果 ＞ -42
rand:
============================
input:
C(-65535)
output:
DiceBot : C(-65535) ＞ 計算結果 ＞ -65535
rand:
============================
input:
C(+5)
output:
DiceBot : C(5) ＞ 計算結果 ＞ 5
rand:
============================
input:
C(+10)
output:
DiceBot : C(10) ＞ 計算結果 ＞ 10
rand:
============================
input:
C(+42)
output:
DiceBot : C(42) ＞ 計算結果 ＞ 42
rand:
============================
input:
C(+65535)
output:
DiceBot : C(65535) ＞ 計算結果 ＞ 65535
rand:
============================
input:
C(1+2)
output:
DiceBot : C(1+2) ＞ 計算結果 ＞ 3
rand:
============================
input:
C(1-2)
output:
DiceBot : C(1-2) ＞ 計算結果 ＞ -1
rand:
============================
input:
C(1*2)
output:
DiceBot : C(1*2) ＞ 計算結果 ＞ 2
rand:
============================
input:
C(1/2)
output:
DiceBot : C(1/2) ＞ 計算結果 ＞ 0
rand:
============================
input:
C(-1+2)
output:
DiceBot : C(-1+2) ＞ 計算結果 ＞ 1
rand:
============================
input:
C(+1+2)
output:
DiceBot : C(1+2) ＞ 計算結果 ＞ 3
rand:
============================
input:
C(1+2-3)
output:
DiceBot : C(1+2-3) ＞ 計算結果 ＞ 0
rand:
============================
input:
C(1*2+3)
output:
DiceBot : C(1*2+3) ＞ 計算結果 ＞ 5
rand:
============================
input:
C(1/2+3)
output:
DiceBot : C(1/2+3) ＞ 計算結果 ＞ 3
rand:
============================
input:
C(1+2*3)
output:
DiceBot : C(1+2*3) ＞ 計算結果 ＞ 7
rand:
============================
input:
C(1+2/3)
output:
DiceBot : C(1+2/3) ＞ 計算結果 ＞ 1
rand:
============================
input:
C(1+(2-3))
output:
DiceBot : C(1+2-3) ＞ 計算結果 ＞ 0
rand:
============================
input:
C((1+2)*3)
output:
DiceBot : C((1+2)*3) ＞ 計算結果 ＞ 9
rand:
============================
input:
C((1+2)/3)
output:
DiceBot : C((1+2)/3) ＞ 計算結果 ＞ 1
rand:
============================
input:
C(-(1+2))
output:
DiceBot : C(-(1+2)) ＞ 計算結果 ＞ -3
rand:
============================
input:
C(+(1+2))
output:
DiceBot : C(1+2) ＞ 計算結果 ＞ 3
rand:
============================
input:
C(1+50/3-2)
output:
DiceBot : C(1+50/3-2) ＞ 計算結果 ＞ 15
rand:
============================
input:
C(1+50/3u-2)
output:
DiceBot : C(1+50/3U-2) ＞ 計算結果 ＞ 16
rand:
============================
input:
C(1+50/3r-2)
output:
DiceBot : C(1+50/3R-2) ＞ 計算結果 ＞ 16
rand:
============================
input:
C(1+100/3-2)
output:
DiceBot : C(1+100/3-2) ＞ 計算結果 ＞ 32
rand:
============================
input:
C(1+100/3u-2)
output:
DiceBot : C(1+100/3U-2) ＞ 計算結果 ＞ 33
rand:
============================
input:
C(1+100/3r-2)
output:
DiceBot : C(1+100/3R-2) ＞ 計算結果 ＞ 32
rand:
".
Example conform_calc : all_pass data_calc = [].
Proof. vm_compute. reflexivity. Qed.

(** pkg/dicebot/gamesystem/basic/testdata/choice.txt *)
Definition data_choice : string := "input:
choice[abc,def]
output:
DiceBot : (CHOICE[abc,def]) ＞ abc
rand:1/2
============================
input:
choice[A,B,C,D]どれにしよう
output:
DiceBot : (CHOICE[A,B,C,D]) ＞ A
rand:1/4
============================
input:
choice[A,B,C,D]どれにしよう
output:
DiceBot : (CHOICE[A,B,C,D]) ＞ B
rand:2/4
============================
input:
choice[A,B,C,D]どれにしよう
output:
DiceBot : (CHOICE[A,B,C,D]) ＞ C
rand:3/4
============================
input:
choice[A,B,C,D]どれにしよう
output:
DiceBot : (CHOICE[A,B,C,D]) ＞ D
rand:4/4
============================
input:
CHOICE[Call of Cthulhu, Sword World, Double Cross]
output:
DiceBot : (CHOICE[Call of Cthulhu,Sword World,Double Cross]) ＞ Call of Cthulhu
rand:1/3
============================
input:
CHOICE[Call of Cthulhu, Sword World, Double Cross]
output:
DiceBot : (CHOICE[Call of Cthulhu,Sword World,Double Cross]) ＞ Sword World
rand:2/3
============================
input:
CHOICE[Call of Cthulhu, Sword World, Double Cross]
output:
DiceBot : (CHOICE[Call of Cthulhu,Sword World,Double Cross]) ＞ Double Cross
rand:3/3
============================
input:
CHOICE[日本語, でも,　だいじょうぶ]
output:
DiceBot : (CHOICE[日本語,でも,だいじょうぶ]) ＞ 日本語
rand:1/3
============================
input:
CHOICE[日本語, でも,　だいじょうぶ]
output:
DiceBot : (CHOICE[日本語,でも,だいじょうぶ]) ＞ でも
rand:2/3
============================
input:
CHOICE[日本語, でも,　だいじょうぶ]
output:
DiceBot : (CHOICE[日本語,でも,だいじょうぶ]) ＞ だいじょうぶ
rand:3/3
============================
input:
choice[1+2, (3*4), 5d6]
output:
DiceBot : (CHOICE[1+2,(3*4),5d6]) ＞ 1+2
rand:1/3
============================
input:
choice[1+2, (3*4), 5d6]
output:
DiceBot : (CHOICE[1+2,(3*4),5d6]) ＞ (3*4)
rand:2/3
============================
input:
choice[1+2, (3*4), 5d6]
output:
DiceBot : (CHOICE[1+2,(3*4),5d6]) ＞ 5d6
rand:3/3
".
Example conform_choice : all_pass data_choice = [].
Proof. vm_compute. reflexivity. Qed.

(** pkg/dicebot/gamesystem/basic/testdata/d_roll_comp.txt *)
Definition data_d_roll_comp : string := "input:
2D6=7
output:
DiceBot : (2D6=7) ＞ 7[3,4] ＞ 7 ＞ 成功
rand:3/6,4/6
============================
input:
2D6=7
output:
DiceBot : (2D6=7) ＞ 6[3,3] ＞ 6 ＞ 失敗
rand:3/6,3/6
============================
input:
2D6=7
output:
DiceBot : (2D6=7) ＞ 6[3,3] ＞ 6 ＞ 失敗
rand:3/6,3/6
============================
input:
2D6+1=3+4
output:
DiceBot : (2D6+1=7) ＞ 6[2,4]+1 ＞ 7 ＞ 成功
rand:2/6,4/6
============================
input:
2D6+1=3+4
output:
DiceBot : (2D6+1=7) ＞ 7[3,4]+1 ＞ 8 ＞ 失敗
rand:3/6,4/6
============================
input:
2D6<>7
output:
DiceBot : (2D6<>7) ＞ 7[3,4] ＞ 7 ＞ 失敗
rand:3/6,4/6
============================
input:
2D6<>7
output:
DiceBot : (2D6<>7) ＞ 6[3,3] ＞ 6 ＞ 成功
rand:3/6,3/6
============================
input:
2D6<>7
output:
DiceBot : (2D6<>7) ＞ 8[3,5] ＞ 8 ＞ 成功
rand:3/6,5/6
============================
input:
2D6<7
output:
DiceBot : (2D6<7) ＞ 6[3,3] ＞ 6 ＞ 成功
rand:3/6,3/6
============================
input:
2D6<7
output:
DiceBot : (2D6<7) ＞ 7[3,4] ＞ 7 ＞ 失敗
rand:3/6,4/6
============================
input:
2D6>7
output:
DiceBot : (2D6>7) ＞ 8[3,5] ＞ 8 ＞ 成功
rand:3/6,5/6
============================
input:
2D6>7
output:
DiceBot : (2D6>7) ＞ 7[3,4] ＞ 7 ＞ 失敗
rand:3/6,4/6
============================
input:
2D6<=7
output:
DiceBot : (2D6<=7) ＞ 7[3,4] ＞ 7 ＞ 成功
rand:3/6,4/6
============================
input:
2D6<=7
output:
DiceBot : (2D6<=7) ＞ 8[3,5] ＞ 8 ＞ 失敗
rand:3/6,5/6
============================
input:
2D6>=7
output:
DiceBot : (2D6>=7) ＞ 7[3,4] ＞ 7 ＞ 成功
rand:3/6,4/6
============================
input:
2D6>=7
output:
DiceBot : (2D6>=7) ＞ 6[3,3] ＞ 6 ＞ 失敗
rand:3/6,3/6
============================
input:
-2D6<-7
output:
DiceBot : (-2D6<-7) ＞ -8[3,5] ＞ -8 ＞ 成功
rand:3/6,5/6
============================
input:
-2D6<-7
output:
DiceBot : (-2D6<-7) ＞ -7[3,4] ＞ -7 ＞ 失敗
rand:3/6,4/6
============================
input:
-2D6>-7
output:
DiceBot : (-2D6>-7) ＞ -6[3,3] ＞ -6 ＞ 成功
rand:3/6,3/6
============================
input:
-2D6>-7
output:
DiceBot : (-2D6>-7) ＞ -7[3,4] ＞ -7 ＞ 失敗
rand:3/6,4/6
============================
input:
-2D6<=-7
output:
DiceBot : (-2D6<=-7) ＞ -7[3,4] ＞ -7 ＞ 成功
rand:3/6,4/6
============================
input:
-2D6<=-7
output:
DiceBot : (-2D6<=-7) ＞ -6[3,3] ＞ -6 ＞ 失敗
rand:3/6,3/6
============================
input:
-2D6>=-7
output:
DiceBot : (-2D6>=-7) ＞ -7[3,4] ＞ -7 ＞ 成功
rand:3/6,4/6
============================
input:
-2D6>=-7
output:
DiceBot : (-2D6>=-7) ＞ -8[3,5] ＞ -8 ＞ 失敗
rand:3/6,5/6
".
Example conform_d_roll_comp : all_pass data_d_roll_comp = [].
Proof. vm_compute. reflexivity. Qed.

(** pkg/dicebot/gamesystem/basic/testdata/d_roll_expr.txt *)
Definition data_d_roll_expr : string := "input:
2D6
output:
DiceBot : (2D6) ＞ 8[5,3] ＞ 8
rand:5/6,3/6
============================
input:
2D4
output:
DiceBot : (2D4) ＞ 3[1,2] ＞ 3
rand:1/4,2/4
============================
input:
2D6+1
output:
DiceBot : (2D6+1) ＞ 8[2,6]+1 ＞ 9
rand:2/6,6/6
============================
input:
1+2D6
output:
DiceBot : (1+2D6) ＞ 1+7[4,3] ＞ 8
rand:4/6,3/6
============================
input:
2d6+1-1-2-3-4
output:
DiceBot : (2D6+1-1-2-3-4) ＞ 7[1,6]+1-1-2-3-4 ＞ -2
rand:1/6,6/6
============================
input:
2D6+4D10
output:
DiceBot : (2D6+4D10) ＞ 9[5,4]+21[1,9,7,4] ＞ 30
rand:5/6,4/6,1/10,9/10,7/10,4/10
============================
input:
2d6*3
output:
DiceBot : (2D6*3) ＞ 6[2,4]*3 ＞ 18
rand:2/6,4/6
============================
input:
2d10+3-4
output:
DiceBot : (2D10+3-4) ＞ 8[3,5]+3-4 ＞ 7
rand:3/10,5/10
============================
input:
2d10+3*4
output:
DiceBot : (2D10+3*4) ＞ 8[3,5]+3*4 ＞ 20
rand:3/10,5/10
============================
input:
2d6*3-1d6+1
output:
DiceBot : (2D6*3-1D6+1) ＞ 8[6,2]*3-3[3]+1 ＞ 22
rand:6/6,2/6,3/6
============================
input:
(2+3)d6-1+3d6+2
output:
DiceBot : (5D6-1+3D6+2) ＞ 17[2,3,1,5,6]-1+13[5,4,4]+2 ＞ 31
rand:2/6,3/6,1/6,5/6,6/6,5/6,4/6,4/6
============================
input:
(2*3-4)d6-1d4+1
output:
DiceBot : (2D6-1D4+1) ＞ 11[6,5]-2[2]+1 ＞ 10
rand:6/6,5/6,2/4
============================
input:
((2+3)*4/3)d6*2+5
output:
DiceBot : (6D6*2+5) ＞ 24[6,5,6,2,1,4]*2+5 ＞ 53
rand:6/6,5/6,6/6,2/6,1/6,4/6
============================
input:
1D6/2
output:
DiceBot : (1D6/2) ＞ 1[1]/2 ＞ 0
rand:1/6
============================
input:
3D6/2
output:
DiceBot : (3D6/2) ＞ 7[1,2,4]/2 ＞ 3
rand:1/6,2/6,4/6
============================
input:
3D6/2+1D6
output:
DiceBot : (3D6/2+1D6) ＞ 7[1,2,4]/2+5[5] ＞ 8
rand:1/6,2/6,4/6,5/6
============================
input:
3D6+1D6/2
output:
DiceBot : (3D6+1D6/2) ＞ 7[1,2,4]+5[5]/2 ＞ 9
rand:1/6,2/6,4/6,5/6
============================
input:
3D6+1D6/2U
output:
DiceBot : (3D6+1D6/2U) ＞ 7[1,2,4]+5[5]/2U ＞ 10
rand:1/6,2/6,4/6,5/6
============================
input:
5D6/10
output:
DiceBot : (5D6/10) ＞ 29[6,6,6,6,5]/10 ＞ 2
rand:6/6,6/6,6/6,6/6,5/6
============================
input:
3D6/2U
output:
DiceBot : (3D6/2U) ＞ 7[1,2,4]/2U ＞ 4
rand:1/6,2/6,4/6
============================
input:
5D6/10u
output:
DiceBot : (5D6/10U) ＞ 21[6,6,6,2,1]/10U ＞ 3
rand:6/6,6/6,6/6,2/6,1/6
============================
input:
1D100/10R
output:
DiceBot : (1D100/10R) ＞ 55[55]/10R ＞ 6
rand:55/100
============================
input:
1D100/10r
output:
DiceBot : (1D100/10R) ＞ 54[54]/10R ＞ 5
rand:54/100
============================
input:
[1...5]D6
output:
DiceBot : (4D6) ＞ 15[5,3,4,3] ＞ 15
rand:4/5,5/6,3/6,4/6,3/6
============================
input:
([2...4]+2)D10
output:
DiceBot : (6D10) ＞ 29[8,7,2,1,6,5] ＞ 29
rand:3/3,8/10,7/10,2/10,1/10,6/10,5/10
============================
input:
[(2+3)...8]D6
output:
DiceBot : (5D6) ＞ 14[1,2,4,6,1] ＞ 14
rand:1/4,1/6,2/6,4/6,6/6,1/6
============================
input:
[5...(7+1)]D6
output:
DiceBot : (5D6) ＞ 14[1,2,4,6,1] ＞ 14
rand:1/4,1/6,2/6,4/6,6/6,1/6
============================
input:
2d[1...5]
output:
DiceBot : (2D2) ＞ 3[1,2] ＞ 3
rand:2/5,1/2,2/2
============================
input:
2d([2...4]+2)
output:
DiceBot : (2D5) ＞ 7[4,3] ＞ 7
rand:2/3,4/5,3/5
============================
input:
2d[(2+3)...8]
output:
DiceBot : (2D8) ＞ 10[3,7] ＞ 10
rand:4/4,3/8,7/8
============================
input:
2d[5...(7+1)]
output:
DiceBot : (2D8) ＞ 10[3,7] ＞ 10
rand:4/4,3/8,7/8
============================
input:
[1...5]d(2*3)
output:
DiceBot : (5D6) ＞ 20[3,5,1,5,6] ＞ 20
rand:5/5,3/6,5/6,1/6,5/6,6/6
============================
input:
(1+1)d[1...5]
output:
DiceBot : (2D4) ＞ 7[3,4] ＞ 7
rand:4/5,3/4,4/4
============================
input:
([1...4]+1)d([2...4]+2)-1
output:
DiceBot : (3D6-1) ＞ 14[5,5,4]-1 ＞ 13
rand:2/4,3/3,5/6,5/6,4/6
============================
input:
1D6/0
output:
rand:1/6
============================
input:
1D6/3x
output:
rand:
".
Example conform_d_roll_expr : all_pass data_d_roll_expr = [].
Proof. vm_compute. reflexivity. Qed.

(** pkg/dicebot/gamesystem/basic/testdata/r_roll_comp.txt *)
Definition data_r_roll_comp : string := "input:
2r6>=1
output:
DiceBot : (2R6[1]>=1) ＞ 振り足し目標値として2以上の整数を指定してください
rand:
============================
input:
2r6=3
output:
DiceBot : (2R6[3]=3) ＞ 3,1 + 2 ＞ 成功数1
rand:3/6,1/6,2/6
============================
input:
2r6=3
output:
DiceBot : (2R6[3]=3) ＞ 6,1 + 3 + 1 ＞ 成功数1
rand:6/6,1/6,3/6,1/6
============================
input:
2R6<>3
output:
DiceBot : (2R6[3]<>3) ＞ 3,1 + 2 ＞ 成功数2
rand:3/6,1/6,2/6
============================
input:
2R6<>3
output:
DiceBot : (2R6[3]<>3) ＞ 6,1 + 3 + 1 ＞ 成功数3
rand:6/6,1/6,3/6,1/6
============================
input:
2R6>3
output:
DiceBot : (2R6[3]>3) ＞ 3,1 + 2 ＞ 成功数0
rand:3/6,1/6,2/6
============================
input:
2R6>3
output:
DiceBot : (2R6[3]>3) ＞ 6,1 + 3 + 1 ＞ 成功数1
rand:6/6,1/6,3/6,1/6
============================
input:
2R6<3
output:
DiceBot : (2R6[3]<3) ＞ 3,1 + 2 ＞ 成功数2
rand:3/6,1/6,2/6
============================
input:
2R6<3
output:
DiceBot : (2R6[3]<3) ＞ 6,1 + 3 + 1 ＞ 成功数2
rand:6/6,1/6,3/6,1/6
============================
input:
2R6>=3
output:
DiceBot : (2R6[3]>=3) ＞ 3,1 + 2 ＞ 成功数1
rand:3/6,1/6,2/6
============================
input:
2R6>=3
output:
DiceBot : (2R6[3]>=3) ＞ 6,1 + 3 + 1 ＞ 成功数2
rand:6/6,1/6,3/6,1/6
============================
input:
2R6<=3
output:
DiceBot : (2R6[3]<=3) ＞ 3,1 + 2 ＞ 成功数3
rand:3/6,1/6,2/6
============================
input:
2R6<=3
output:
DiceBot : (2R6[3]<=3) ＞ 6,1 + 3 + 1 ＞ 成功数3
rand:6/6,1/6,3/6,1/6
============================
input:
12R6>=6
output:
DiceBot : (12R6[6]>=6) ＞ 4,1,5,4,3,2,5,1,6,3,2,5 + 5 ＞ 成功数1
rand:4/6,1/6,5/6,4/6,3/6,2/6,5/6,1/6,6/6,3/6,2/6,5/6,5/6
============================
input:
12R6>=6
output:
DiceBot : (12R6[6]>=6) ＞ 6,1,2,2,2,1,5,5,1,5,2,6 + 4,5 ＞ 成功数2
rand:6/6,1/6,2/6,2/6,2/6,1/6,5/6,5/6,1/6,5/6,2/6,6/6,4/6,5/6
============================
input:
12R6>=6
output:
DiceBot : (12R6[6]>=6) ＞ 2,4,4,5,4,1,2,6,6,6,1,4 + 6,4,6 + 3,4 ＞ 成功数5
rand:2/6,4/6,4/6,5/6,4/6,1/6,2/6,6/6,6/6,6/6,1/6,4/6,6/6,4/6,6/6,3/6,4/6
============================
input:
12R6>=6
output:
DiceBot : (12R6[6]>=6) ＞ 2,5,4,5,3,1,3,4,2,2,4,5 ＞ 成功数0
rand:2/6,5/6,4/6,5/6,3/6,1/6,3/6,4/6,2/6,2/6,4/6,5/6
============================
input:
12R6>=6
output:
DiceBot : (12R6[6]>=6) ＞ 5,3,5,3,1,1,6,3,2,2,5,5 + 6 + 4 ＞ 成功数2
rand:5/6,3/6,5/6,3/6,1/6,1/6,6/6,3/6,2/6,2/6,5/6,5/6,6/6,4/6
============================
input:
12R6>=6
output:
DiceBot : (12R6[6]>=6) ＞ 4,4,2,1,5,6,5,1,1,4,4,6 + 3,6 + 2 ＞ 成功数3
rand:4/6,4/6,2/6,1/6,5/6,6/6,5/6,1/6,1/6,4/6,4/6,6/6,3/6,6/6,2/6
============================
input:
12R6>=6
output:
DiceBot : (12R6[6]>=6) ＞ 2,1,2,5,2,3,1,3,4,4,4,5 ＞ 成功数0
rand:2/6,1/6,2/6,5/6,2/6,3/6,1/6,3/6,4/6,4/6,4/6,5/6
============================
input:
12R6>=6
output:
DiceBot : (12R6[6]>=6) ＞ 1,2,3,4,1,1,2,3,6,4,1,4 + 2 ＞ 成功数1
rand:1/6,2/6,3/6,4/6,1/6,1/6,2/6,3/6,6/6,4/6,1/6,4/6,2/6
============================
input:
12R6>=6
output:
DiceBot : (12R6[6]>=6) ＞ 4,3,6,2,2,1,3,5,1,3,2,1 + 6 + 2 ＞ 成功数2
rand:4/6,3/6,6/6,2/6,2/6,1/6,3/6,5/6,1/6,3/6,2/6,1/6,6/6,2/6
============================
input:
12R6>=6
output:
DiceBot : (12R6[6]>=6) ＞ 6,6,3,1,4,2,4,5,4,3,6,6 + 4,4,3,4 ＞ 成功数4
rand:6/6,6/6,3/6,1/6,4/6,2/6,4/6,5/6,4/6,3/6,6/6,6/6,4/6,4/6,3/6,4/6
============================
input:
2R4+2R6>=4
output:
DiceBot : (2R4+2R6[4]>=4) ＞ 4,3 + 3,5 + 1 + 2 ＞ 成功数2
rand:4/4,3/4,3/6,5/6,1/4,2/6
============================
input:
2R6[3]>=4
output:
DiceBot : (2R6[3]>=4) ＞ 6,1 + 3 + 1 ＞ 成功数1
rand:6/6,1/6,3/6,1/6
".
Example conform_r_roll_comp : all_pass data_r_roll_comp = [].
Proof. vm_compute. reflexivity. Qed.

(** pkg/dicebot/gamesystem/basic/testdata/r_roll_list.txt *)
Definition data_r_roll_list : string := "input:
2R6
output:
DiceBot : (2R6) ＞ 2R6>=5 あるいは 2R6[5] のように振り足し目標値を指定してください
rand:
============================
input:
2r6[1]
output:
DiceBot : (2R6[1]) ＞ 振り足し目標値として2以上の整数を指定してください
rand:
============================
input:
2R6[3]
output:
DiceBot : (2R6[3]) ＞ 3,1 + 2
rand:3/6,1/6,2/6
============================
input:
2R6[3]
output:
DiceBot : (2R6[3]) ＞ 6,1 + 3 + 1
rand:6/6,1/6,3/6,1/6
============================
input:
12R6[6]
output:
DiceBot : (12R6[6]) ＞ 4,1,5,4,3,2,5,1,6,3,2,5 + 5
rand:4/6,1/6,5/6,4/6,3/6,2/6,5/6,1/6,6/6,3/6,2/6,5/6,5/6
============================
input:
12R6[6]
output:
DiceBot : (12R6[6]) ＞ 2,4,4,5,4,1,2,6,6,6,1,4 + 6,4,6 + 3,4
rand:2/6,4/6,4/6,5/6,4/6,1/6,2/6,6/6,6/6,6/6,1/6,4/6,6/6,4/6,6/6,3/6,4/6
============================
input:
12R6[6]
output:
DiceBot : (12R6[6]) ＞ 2,5,4,5,3,1,3,4,2,2,4,5
rand:2/6,5/6,4/6,5/6,3/6,1/6,3/6,4/6,2/6,2/6,4/6,5/6
============================
input:
2R4+2R6[4]
output:
DiceBot : (2R4+2R6[4]) ＞ 4,3 + 3,5 + 1 + 2
rand:4/4,3/4,3/6,5/6,1/4,2/6
".
Example conform_r_roll_list : all_pass data_r_roll_list = [].
Proof. vm_compute. reflexivity. Qed.

(** pkg/dicebot/gamesystem/basic/testdata/secret_roll.txt *)
Definition data_secret_roll : string := "input:
S2d6
output:
DiceBot : (2D6) ＞ 5[4,1] ＞ 5###secret dice###
rand:4/6,1/6
============================
input:
s2d6
output:
DiceBot : (2D6) ＞ 5[4,1] ＞ 5###secret dice###
rand:4/6,1/6
============================
input:
S1U6[3]
output:
DiceBot : (1U6[3]) ＞ 5[3,2] ＞ 5/5 (最大/合計)###secret dice###
rand:3/6,2/6
============================
input:
S3B6>=4
output:
DiceBot : (3B6>=4) ＞ 5,2,4 ＞ 成功数2###secret dice###
rand:5/6,2/6,4/6
============================
input:
Schoice[abc2,def3]
output:
DiceBot : (CHOICE[abc2,def3]) ＞ def3###secret dice###
rand:2/2
============================
input:
S2R6[3]
output:
DiceBot : (2R6[3]) ＞ 3,2 + 1###secret dice###
rand:3/6,2/6,1/6
".
Example conform_secret_roll : all_pass data_secret_roll = [].
Proof. vm_compute. reflexivity. Qed.

(** pkg/dicebot/gamesystem/basic/testdata/u_roll_comp.txt *)
Definition data_u_roll_comp : string := "input:
3U6>=7
output:
DiceBot : (3U6>=7) ＞ 2U6[5] のように振り足し目標値を指定してください
rand:
============================
input:
3U6[1]>=7
output:
DiceBot : (3U6[1]>=7) ＞ 振り足し目標値として2以上の整数を指定してください
rand:
============================
input:
3u6[6]=7
output:
DiceBot : (3U6[6]=7) ＞ 11[6,5],7[6,1],5 ＞ 成功数1
rand:6/6,5/6,6/6,1/6,5/6
============================
input:
3u6[6]=7
output:
DiceBot : (3U6[6]=7) ＞ 11[6,5],7[6,1],7[6,1] ＞ 成功数2
rand:6/6,5/6,6/6,1/6,6/6,1/6
============================
input:
3u6[6]-4=7
output:
DiceBot : (3U6[6]-4=7) ＞ 11[6,5],7[6,1],5-4 ＞ 成功数1
rand:6/6,5/6,6/6,1/6,5/6
============================
input:
3u6[6]<>7
output:
DiceBot : (3U6[6]<>7) ＞ 11[6,5],7[6,1],5 ＞ 成功数2
rand:6/6,5/6,6/6,1/6,5/6
============================
input:
3u6[6]<>7
output:
DiceBot : (3U6[6]<>7) ＞ 11[6,5],7[6,1],7[6,1] ＞ 成功数1
rand:6/6,5/6,6/6,1/6,6/6,1/6
============================
input:
3u6[6]+1<>7
output:
DiceBot : (3U6[6]+1<>7) ＞ 11[6,5],7[6,1],5+1 ＞ 成功数3
rand:6/6,5/6,6/6,1/6,5/6
============================
input:
3u6[6]>6
output:
DiceBot : (3U6[6]>6) ＞ 11[6,5],7[6,1],5 ＞ 成功数2
rand:6/6,5/6,6/6,1/6,5/6
============================
input:
3u6[6]>6
output:
DiceBot : (3U6[6]>6) ＞ 11[6,5],7[6,1],7[6,1] ＞ 成功数3
rand:6/6,5/6,6/6,1/6,6/6,1/6
============================
input:
3u6[6]-1>6
output:
DiceBot : (3U6[6]-1>6) ＞ 11[6,5],7[6,1],5-1 ＞ 成功数1
rand:6/6,5/6,6/6,1/6,5/6
============================
input:
3u6[6]<6
output:
DiceBot : (3U6[6]<6) ＞ 11[6,5],7[6,1],5 ＞ 成功数1
rand:6/6,5/6,6/6,1/6,5/6
============================
input:
3u6[6]<6
output:
DiceBot : (3U6[6]<6) ＞ 11[6,5],7[6,1],7[6,1] ＞ 成功数0
rand:6/6,5/6,6/6,1/6,6/6,1/6
============================
input:
3u6[6]-2<6
output:
DiceBot : (3U6[6]-2<6) ＞ 11[6,5],7[6,1],5-2 ＞ 成功数2
rand:6/6,5/6,6/6,1/6,5/6
============================
input:
3u6[6]>=7
output:
DiceBot : (3U6[6]>=7) ＞ 11[6,5],7[6,1],5 ＞ 成功数2
rand:6/6,5/6,6/6,1/6,5/6
============================
input:
3u6[6]>=7
output:
DiceBot : (3U6[6]>=7) ＞ 11[6,5],7[6,1],7[6,1] ＞ 成功数3
rand:6/6,5/6,6/6,1/6,6/6,1/6
============================
input:
3u6[6]-1>=7
output:
DiceBot : (3U6[6]-1>=7) ＞ 11[6,5],7[6,1],5-1 ＞ 成功数1
rand:6/6,5/6,6/6,1/6,5/6
============================
input:
3u6[6]<=7
output:
DiceBot : (3U6[6]<=7) ＞ 11[6,5],7[6,1],5 ＞ 成功数2
rand:6/6,5/6,6/6,1/6,5/6
============================
input:
3u6[6]<=7
output:
DiceBot : (3U6[6]<=7) ＞ 11[6,5],7[6,1],7[6,1] ＞ 成功数2
rand:6/6,5/6,6/6,1/6,6/6,1/6
============================
input:
3u6[6]-4<=7
output:
DiceBot : (3U6[6]-4<=7) ＞ 11[6,5],7[6,1],5-4 ＞ 成功数3
rand:6/6,5/6,6/6,1/6,5/6
============================
input:
3u6+5u6[6]>=7
output:
DiceBot : (3U6+5U6[6]>=7) ＞ 3,5,3,10[6,4],1,15[6,6,3],5,1 ＞ 成功数2
rand:3/6,5/6,3/6,6/6,4/6,1/6,6/6,6/6,3/6,5/6,1/6
============================
input:
(5+6)u10[10]+5>=8
output:
DiceBot : (11U10[10]+5>=8) ＞ 3,2,7,4,7,5,4,4,7,16[10,6],1+5 ＞ 成功数9
rand:3/10,2/10,7/10,4/10,7/10,5/10,4/10,4/10,7/10,10/10,6/10,1/10
============================
input:
6U6[4]>=10
output:
DiceBot : (6U6[4]>=10) ＞ 2,7[5,2],1,11[4,6,1],8[5,3],3 ＞ 成功数1
rand:2/6,5/6,2/6,1/6,4/6,6/6,1/6,5/6,3/6,3/6
============================
input:
6U6[4]>=10
output:
DiceBot : (6U6[4]>=10) ＞ 7[5,2],14[6,6,2],1,1,3,9[6,3] ＞ 成功数1
rand:5/6,2/6,6/6,6/6,2/6,1/6,1/6,3/6,6/6,3/6
============================
input:
6U6[4]>=10
output:
DiceBot : (6U6[4]>=10) ＞ 7[4,3],1,1,23[4,6,6,4,3],1,14[6,5,3] ＞ 成功数2
rand:4/6,3/6,1/6,1/6,4/6,6/6,6/6,4/6,3/6,1/6,6/6,5/6,3/6
============================
input:
6U6[4]>=10
output:
DiceBot : (6U6[4]>=10) ＞ 2,3,7[5,2],8[5,3],2,14[6,6,2] ＞ 成功数1
rand:2/6,3/6,5/6,2/6,5/6,3/6,2/6,6/6,6/6,2/6
============================
input:
6U6[4]>=10
output:
DiceBot : (6U6[4]>=10) ＞ 13[6,4,3],16[4,6,4,2],7[5,2],8[6,2],18[6,5,4,3],12[5,5,2] ＞ 成功数4
rand:6/6,4/6,3/6,4/6,6/6,4/6,2/6,5/6,2/6,6/6,2/6,6/6,5/6,4/6,3/6,5/6,5/6,2/6
============================
input:
6U6[4]>=10
output:
DiceBot : (6U6[4]>=10) ＞ 1,10[5,4,1],8[5,3],11[5,5,1],2,8[6,2] ＞ 成功数2
rand:1/6,5/6,4/6,1/6,5/6,3/6,5/6,5/6,1/6,2/6,6/6,2/6
============================
input:
6U6[4]>=10
output:
DiceBot : (6U6[4]>=10) ＞ 1,3,2,6[4,2],1,11[6,4,1] ＞ 成功数1
rand:1/6,3/6,2/6,4/6,2/6,1/6,6/6,4/6,1/6
============================
input:
6U6[4]>=10
output:
DiceBot : (6U6[4]>=10) ＞ 3,1,12[5,4,3],1,13[6,4,3],13[5,5,3] ＞ 成功数3
rand:3/6,1/6,5/6,4/6,3/6,1/6,6/6,4/6,3/6,5/6,5/6,3/6
============================
input:
6U6[4]>=10
output:
DiceBot : (6U6[4]>=10) ＞ 11[5,4,2],3,6[4,2],3,7[5,2],1 ＞ 成功数1
rand:5/6,4/6,2/6,3/6,4/6,2/6,3/6,5/6,2/6,1/6
============================
input:
6U6[4]>=10
output:
DiceBot : (6U6[4]>=10) ＞ 13[5,5,3],3,2,15[6,6,3],5[4,1],3 ＞ 成功数2
rand:5/6,5/6,3/6,3/6,2/6,6/6,6/6,3/6,4/6,1/6,3/6
".
Example conform_u_roll_comp : all_pass data_u_roll_comp = [].
Proof. vm_compute. reflexivity. Qed.

(** pkg/dicebot/gamesystem/basic/testdata/u_roll_expr.txt *)
Definition data_u_roll_expr : string := "input:
3u6
output:
DiceBot : (3U6) ＞ 2U6[5] のように振り足し目標値を指定してください
rand:
============================
input:
3u6[1]
output:
DiceBot : (3U6[1]) ＞ 振り足し目標値として2以上の整数を指定してください
rand:
============================
input:
1U6[3]
output:
DiceBot : (1U6[3]) ＞ 5[3,2] ＞ 5/5 (最大/合計)
rand:3/6,2/6
============================
input:
3u6[6]
output:
DiceBot : (3U6[6]) ＞ 11[6,5],7[6,1],7[6,1] ＞ 11/25 (最大/合計)
rand:6/6,5/6,6/6,1/6,6/6,1/6
============================
input:
(1+2)u6[6]
output:
DiceBot : (3U6[6]) ＞ 11[6,5],7[6,1],7[6,1] ＞ 11/25 (最大/合計)
rand:6/6,5/6,6/6,1/6,6/6,1/6
============================
input:
3u(2*3)[6]
output:
DiceBot : (3U6[6]) ＞ 11[6,5],7[6,1],7[6,1] ＞ 11/25 (最大/合計)
rand:6/6,5/6,6/6,1/6,6/6,1/6
============================
input:
3u6[12/2]
output:
DiceBot : (3U6[6]) ＞ 11[6,5],7[6,1],7[6,1] ＞ 11/25 (最大/合計)
rand:6/6,5/6,6/6,1/6,6/6,1/6
============================
input:
6U6[4]
output:
DiceBot : (6U6[4]) ＞ 2,7[5,2],1,11[4,6,1],8[5,3],3 ＞ 11/32 (最大/合計)
rand:2/6,5/6,2/6,1/6,4/6,6/6,1/6,5/6,3/6,3/6
============================
input:
6U6[4]
output:
DiceBot : (6U6[4]) ＞ 7[4,3],1,1,23[4,6,6,4,3],1,14[6,5,3] ＞ 23/47 (最大/合計)
rand:4/6,3/6,1/6,1/6,4/6,6/6,6/6,4/6,3/6,1/6,6/6,5/6,3/6
============================
input:
1U100[96]+3
output:
DiceBot : (1U100[96]+3) ＞ 155[98,57]+3 ＞ 158/158 (最大/合計)
rand:98/100,57/100
============================
input:
3u6[5]
output:
DiceBot : (3U6[5]) ＞ 7[5,2],4,4 ＞ 7/15 (最大/合計)
rand:5/6,2/6,4/6,4/6
============================
input:
3u6[5]+10
output:
DiceBot : (3U6[5]+10) ＞ 7[5,2],4,4+10 ＞ 17/25 (最大/合計)
rand:5/6,2/6,4/6,4/6
============================
input:
3u6[5]-(-2-2*4)
output:
DiceBot : (3U6[5]+10) ＞ 7[5,2],4,4+10 ＞ 17/25 (最大/合計)
rand:5/6,2/6,4/6,4/6
============================
input:
3u6[5]-10
output:
DiceBot : (3U6[5]-10) ＞ 7[5,2],4,4-10 ＞ -3/5 (最大/合計)
rand:5/6,2/6,4/6,4/6
============================
input:
3u6[5]+(-2-2*4)
output:
DiceBot : (3U6[5]-10) ＞ 7[5,2],4,4-10 ＞ -3/5 (最大/合計)
rand:5/6,2/6,4/6,4/6
============================
input:
3u6+5u6[6]
output:
DiceBot : (3U6+5U6[6]) ＞ 3,5,3,10[6,4],1,15[6,6,3],5,1 ＞ 15/43 (最大/合計)
rand:3/6,5/6,3/6,6/6,4/6,1/6,6/6,6/6,3/6,5/6,1/6
============================
input:
(5+6)u10[10]+5
output:
DiceBot : (11U10[10]+5) ＞ 3,2,7,4,7,5,4,4,7,16[10,6],1+5 ＞ 21/65 (最大/合計)
rand:3/10,2/10,7/10,4/10,7/10,5/10,4/10,4/10,7/10,10/10,6/10,1/10
".
Example conform_u_roll_expr : all_pass data_u_roll_expr = [].
Proof. vm_compute. reflexivity. Qed.

Definition parse_sexp (s : string) : option string := match parse_command s with Ok n => Some (sexp n) | _ => None end.
Definition parser_cases : list (string * option string) :=
 [("C(1)", Some "(Calc 1)");
  ("C(42)", Some "(Calc 42)");
  ("C(-1)", Some "(Calc (- 1))");
  ("C(+1)", Some "(Calc 1)");
  ("C(1+2)", Some "(Calc (+ 1 2))");
  ("C(1-2)", Some "(Calc (- 1 2))");
  ("C(1*2)", Some "(Calc (* 1 2))");
  ("C(1/2)", Some "(Calc (/ 1 2))");
  ("C(1/2u)", Some "(Calc (/U 1 2))");
  ("C(1/2r)", Some "(Calc (/R 1 2))");
  ("C(-1+2)", Some "(Calc (+ (- 1) 2))");
  ("C(+1+2)", Some "(Calc (+ 1 2))");
  ("C(1+2-3)", Some "(Calc (- (+ 1 2) 3))");
  ("C(1*2+3)", Some "(Calc (+ (* 1 2) 3))");
  ("C(1/2+3)", Some "(Calc (+ (/ 1 2) 3))");
  ("C(1+2*3)", Some "(Calc (+ 1 (* 2 3)))");
  ("C(1+2/3)", Some "(Calc (+ 1 (/ 2 3)))");
  ("C(1+(2-3))", Some "(Calc (+ 1 (- 2 3)))");
  ("C((1+2)*3)", Some "(Calc (* (+ 1 2) 3))");
  ("C((1+2)/3)", Some "(Calc (/ (+ 1 2) 3))");
  ("C((1+2)/3+4*5-6)", Some "(Calc (- (+ (/ (+ 1 2) 3) (* 4 5)) 6))");
  ("C((1+2)/3u+4*5-6)", Some "(Calc (- (+ (/U (+ 1 2) 3) (* 4 5)) 6))");
  ("C((1+2)/3r+4*5-6)", Some "(Calc (- (+ (/R (+ 1 2) 3) (* 4 5)) 6))");
  ("C(100/(1+2))", Some "(Calc (/ 100 (+ 1 2)))");
  ("C(100/(1+2)u)", Some "(Calc (/U 100 (+ 1 2)))");
  ("C(100/(1+2)r)", Some "(Calc (/R 100 (+ 1 2)))");
  ("C(-(1+2))", Some "(Calc (- (+ 1 2)))");
  ("C(+(1+2))", Some "(Calc (+ 1 2))");
  ("CC(1)", None);
  ("C(10+5) mokekeke", Some "(Calc (+ 10 5))");
  ("C([1...3])", None);
  ("C([1...3]*2)", None);
  ("C([(1+2)...(4+5)])", None);
  ("C([1+2...4-5])", None);
  ("C([1...2...3])", None);
  ("2D6", Some "(DRollExpr (DRoll 2 6))");
  ("2D6D6", None);
  ("12D60", Some "(DRollExpr (DRoll 12 60))");
  ("1", None);
  ("-2D6", Some "(DRollExpr (- (DRoll 2 6)))");
  ("+2D6", Some "(DRollExpr (DRoll 2 6))");
  ("2D6+1", Some "(DRollExpr (+ (DRoll 2 6) 1))");
  ("1+2D6", Some "(DRollExpr (+ 1 (DRoll 2 6)))");
  ("1+2D6+2", Some "(DRollExpr (+ (+ 1 (DRoll 2 6)) 2))");
  ("-2D6+1", Some "(DRollExpr (+ (- (DRoll 2 6)) 1))");
  ("+2D6+1", Some "(DRollExpr (+ (DRoll 2 6) 1))");
  ("2d6+1-1-2-3-4", Some "(DRollExpr (- (- (- (- (+ (DRoll 2 6) 1) 1) 2) 3) 4))");
  ("2D6+4D10", Some "(DRollExpr (+ (DRoll 2 6) (DRoll 4 10)))");
  ("(2D6)", Some "(DRollExpr (DRoll 2 6))");
  ("-(2D6)", Some "(DRollExpr (- (DRoll 2 6)))");
  ("+(2D6)", Some "(DRollExpr (DRoll 2 6))");
  ("(1)", None);
  ("2d6*3", Some "(DRollExpr (* (DRoll 2 6) 3))");
  ("2d6/2", Some "(DRollExpr (/ (DRoll 2 6) 2))");
  ("2d6/2u", Some "(DRollExpr (/U (DRoll 2 6) 2))");
  ("2d6/2r", Some "(DRollExpr (/R (DRoll 2 6) 2))");
  ("100/2d6+1", Some "(DRollExpr (+ (/ 100 (DRoll 2 6)) 1))");
  ("100/2d6u+1", Some "(DRollExpr (+ (/U 100 (DRoll 2 6)) 1))");
  ("100/2d6r+1", Some "(DRollExpr (+ (/R 100 (DRoll 2 6)) 1))");
  ("100/(2d6+1)+4*5", Some "(DRollExpr (+ (/ 100 (+ (DRoll 2 6) 1)) (* 4 5)))");
  ("100/(2d6+1)u+4*5", Some "(DRollExpr (+ (/U 100 (+ (DRoll 2 6) 1)) (* 4 5)))");
  ("100/(2d6+1)r+4*5", Some "(DRollExpr (+ (/R 100 (+ (DRoll 2 6) 1)) (* 4 5)))");
  ("4d10/2d6+1", Some "(DRollExpr (+ (/ (DRoll 4 10) (DRoll 2 6)) 1))");
  ("4d10/2d6u+1", Some "(DRollExpr (+ (/U (DRoll 4 10) (DRoll 2 6)) 1))");
  ("4d10/2d6r+1", Some "(DRollExpr (+ (/R (DRoll 4 10) (DRoll 2 6)) 1))");
  ("2d10+3-4", Some "(DRollExpr (- (+ (DRoll 2 10) 3) 4))");
  ("2d10+3*4", Some "(DRollExpr (+ (DRoll 2 10) (* 3 4)))");
  ("2d10/3+4*5-6", Some "(DRollExpr (- (+ (/ (DRoll 2 10) 3) (* 4 5)) 6))");
  ("2d10/3u+4*5-6", Some "(DRollExpr (- (+ (/U (DRoll 2 10) 3) (* 4 5)) 6))");
  ("2d10/3r+4*5-6", Some "(DRollExpr (- (+ (/R (DRoll 2 10) 3) (* 4 5)) 6))");
  ("2d6*3-1d6+1", Some "(DRollExpr (+ (- (* (DRoll 2 6) 3) (DRoll 1 6)) 1))");
  ("(2+3)d6-1+3d6+2", Some "(DRollExpr (+ (+ (- (DRoll (+ 2 3) 6) 1) (DRoll 3 6)) 2))");
  ("(2*3-4)d6-1d4+1", Some "(DRollExpr (+ (- (DRoll (- (* 2 3) 4) 6) (DRoll 1 4)) 1))");
  ("((2+3)*4/3)d6*2+5", Some "(DRollExpr (+ (* (DRoll (/ (* (+ 2 3) 4) 3) 6) 2) 5))");
  ("2d(1+5)", Some "(DRollExpr (DRoll 2 (+ 1 5)))");
  ("(8/2)D(4+6)", Some "(DRollExpr (DRoll (/ 8 2) (+ 4 6)))");
  ("(2-1)d(8/2)*(1+1)d(3*4/2)+2*3", Some "(DRollExpr (+ (* (DRoll (- 2 1) (/ 8 2)) (DRoll (+ 1 1) (/ (* 3 4) 2))) (* 2 3)))");
  ("[1...5]D6", Some "(DRollExpr (DRoll (RandomNumber 1 5) 6))");
  ("([2...4]+2)D10", Some "(DRollExpr (DRoll (+ (RandomNumber 2 4) 2) 10))");
  ("[(2+3)...8]D6", Some "(DRollExpr (DRoll (RandomNumber (+ 2 3) 8) 6))");
  ("[5...(7+1)]D6", Some "(DRollExpr (DRoll (RandomNumber 5 (+ 7 1)) 6))");
  ("2d[1...5]", Some "(DRollExpr (DRoll 2 (RandomNumber 1 5)))");
  ("2d([2...4]+2)", Some "(DRollExpr (DRoll 2 (+ (RandomNumber 2 4) 2)))");
  ("2d[(2+3)...8]", Some "(DRollExpr (DRoll 2 (RandomNumber (+ 2 3) 8)))");
  ("2d[5...(7+1)]", Some "(DRollExpr (DRoll 2 (RandomNumber 5 (+ 7 1))))");
  ("[1...5]d(2*3)", Some "(DRollExpr (DRoll (RandomNumber 1 5) (* 2 3)))");
  ("(1+1)d[1...5]", Some "(DRollExpr (DRoll (+ 1 1) (RandomNumber 1 5)))");
  ("([1...4]+1)d([2...4]+2)-1", Some "(DRollExpr (- (DRoll (+ (RandomNumber 1 4) 1) (+ (RandomNumber 2 4) 2)) 1))");
  ("2d6=7", Some "(DRollComp (= (DRoll 2 6) 7))");
  ("2d6<>7", Some "(DRollComp (<> (DRoll 2 6) 7))");
  ("2d6>7", Some "(DRollComp (> (DRoll 2 6) 7))");
  ("2d6<7", Some "(DRollComp (< (DRoll 2 6) 7))");
  ("2d6>=7", Some "(DRollComp (>= (DRoll 2 6) 7))");
  ("2d6<=7", Some "(DRollComp (<= (DRoll 2 6) 7))");
  ("2d6>=5+3", Some "(DRollComp (>= (DRoll 2 6) (+ 5 3)))");
  ("2d6+1>=3+4", Some "(DRollComp (>= (+ (DRoll 2 6) 1) (+ 3 4)))");
  ("1+2d6>=3+4", Some "(DRollComp (>= (+ 1 (DRoll 2 6)) (+ 3 4)))");
  ("2*(2d6+1)/3<7", Some "(DRollComp (< (/ (* 2 (+ (DRoll 2 6) 1)) 3) 7))");
  ("7<2d6", None);
  ("2d6<7<8", None);
  ("1<=2d6<=12", None);
  ("1<2<2d6", None);
  ("2b6", Some "(BRollList (BRoll 2 6))");
  ("[1...3]b6", Some "(BRollList (BRoll (RandomNumber 1 3) 6))");
  ("2b[4...6]", Some "(BRollList (BRoll 2 (RandomNumber 4 6)))");
  ("[1...3]b[4...6]", Some "(BRollList (BRoll (RandomNumber 1 3) (RandomNumber 4 6)))");
  ("(1*2)b6", Some "(BRollList (BRoll (* 1 2) 6))");
  ("([1...3]+1)b6", Some "(BRollList (BRoll (+ (RandomNumber 1 3) 1) 6))");
  ("2b(2+4)", Some "(BRollList (BRoll 2 (+ 2 4)))");
  ("2b([3...5]+1)", Some "(BRollList (BRoll 2 (+ (RandomNumber 3 5) 1)))");
  ("[1...5]b(2*3)", Some "(BRollList (BRoll (RandomNumber 1 5) (* 2 3)))");
  ("(1+1)b[1...5]", Some "(BRollList (BRoll (+ 1 1) (RandomNumber 1 5)))");
  ("(1*2)b(2+4)", Some "(BRollList (BRoll (* 1 2) (+ 2 4)))");
  ("2b6+4b10", Some "(BRollList (BRoll 2 6) (BRoll 4 10))");
  ("2b6+3b8+5b12", Some "(BRollList (BRoll 2 6) (BRoll 3 8) (BRoll 5 12))");
  ("2b6+1", None);
  ("1+2b6", None);
  ("2b6=3", Some "(BRollComp (= (BRollList (BRoll 2 6)) 3))");
  ("2b6<>3", Some "(BRollComp (<> (BRollList (BRoll 2 6)) 3))");
  ("2b6>3", Some "(BRollComp (> (BRollList (BRoll 2 6)) 3))");
  ("2b6<3", Some "(BRollComp (< (BRollList (BRoll 2 6)) 3))");
  ("2b6>=3", Some "(BRollComp (>= (BRollList (BRoll 2 6)) 3))");
  ("2b6<=3", Some "(BRollComp (<= (BRollList (BRoll 2 6)) 3))");
  ("2b6>4-1", Some "(BRollComp (> (BRollList (BRoll 2 6)) (- 4 1)))");
  ("2b6+4b10>4", Some "(BRollComp (> (BRollList (BRoll 2 6) (BRoll 4 10)) 4))");
  ("2b6>-(-1*3)", Some "(BRollComp (> (BRollList (BRoll 2 6)) (- (* (- 1) 3))))");
  ("2b6+1>3", None);
  ("1+2b6>3", None);
  ("3<2b6", None);
  ("1<2b6<5", None);
  ("2b6<4<5", None);
  ("1<2<2b6", None);
  ("3r6=4", Some "(RRollComp (= (RRollList nil (RRoll 3 6)) 4))");
  ("3r6<>4", Some "(RRollComp (<> (RRollList nil (RRoll 3 6)) 4))");
  ("3r6>4", Some "(RRollComp (> (RRollList nil (RRoll 3 6)) 4))");
  ("3r6<4", Some "(RRollComp (< (RRollList nil (RRoll 3 6)) 4))");
  ("3r6>=4", Some "(RRollComp (>= (RRollList nil (RRoll 3 6)) 4))");
  ("3r6<=4", Some "(RRollComp (<= (RRollList nil (RRoll 3 6)) 4))");
  ("3r6+2r6<=2", Some "(RRollComp (<= (RRollList nil (RRoll 3 6) (RRoll 2 6)) 2))");
  ("(3+2)r6>=5", Some "(RRollComp (>= (RRollList nil (RRoll (+ 3 2) 6)) 5))");
  ("1r(2*3)>=4", Some "(RRollComp (>= (RRollList nil (RRoll 1 (* 2 3))) 4))");
  ("3r6>1*4", Some "(RRollComp (> (RRollList nil (RRoll 3 6)) (* 1 4)))");
  ("2r6", Some "(RRollList nil (RRoll 2 6))");
  ("2r6[5]", Some "(RRollList 5 (RRoll 2 6))");
  ("3r6+2r6[2]", Some "(RRollList 2 (RRoll 3 6) (RRoll 2 6))");
  ("6R6[6]>=5", Some "(RRollComp (>= (RRollList 6 (RRoll 6 6)) 5))");
  ("6R6[2*3]>=5", Some "(RRollComp (>= (RRollList (* 2 3) (RRoll 6 6)) 5))");
  ("2r6+1>=4", None);
  ("1<3r6<4", None);
  ("3u6", Some "(URollExpr (RRollList nil (URoll 3 6)))");
  ("(1*3)u6", Some "(URollExpr (RRollList nil (URoll (* 1 3) 6)))");
  ("3u(5+1)", Some "(URollExpr (RRollList nil (URoll 3 (+ 5 1))))");
  ("3u6[6]", Some "(URollExpr (RRollList 6 (URoll 3 6)))");
  ("3u6[2+4]", Some "(URollExpr (RRollList (+ 2 4) (URoll 3 6)))");
  ("3u6+5u6[6]", Some "(URollExpr (RRollList 6 (URoll 3 6) (URoll 5 6)))");
  ("3u6[6]+1", Some "(URollExpr (+ (RRollList 6 (URoll 3 6)) 1))");
  ("3u6[6]-1", Some "(URollExpr (- (RRollList 6 (URoll 3 6)) 1))");
  ("1U100[96]+3", Some "(URollExpr (+ (RRollList 96 (URoll 1 100)) 3))");
  ("3u6[6]=10", Some "(URollComp (= (URollExpr (RRollList 6 (URoll 3 6))) 10))");
  ("3u6[6]<>10", Some "(URollComp (<> (URollExpr (RRollList 6 (URoll 3 6))) 10))");
  ("3u6[6]>10", Some "(URollComp (> (URollExpr (RRollList 6 (URoll 3 6))) 10))");
  ("3u6[6]<10", Some "(URollComp (< (URollExpr (RRollList 6 (URoll 3 6))) 10))");
  ("3u6[6]>=10", Some "(URollComp (>= (URollExpr (RRollList 6 (URoll 3 6))) 10))");
  ("3u6[6]<=10", Some "(URollComp (<= (URollExpr (RRollList 6 (URoll 3 6))) 10))");
  ("3u6[6]>=2+8", Some "(URollComp (>= (URollExpr (RRollList 6 (URoll 3 6))) (+ 2 8)))");
  ("3u6[6]+1>=10", Some "(URollComp (>= (URollExpr (+ (RRollList 6 (URoll 3 6)) 1)) 10))");
  ("3u6+5u6[6]>=7", Some "(URollComp (>= (URollExpr (RRollList 6 (URoll 3 6) (URoll 5 6))) 7))");
  ("(5+6)u10[10]+5>=8", Some "(URollComp (>= (URollExpr (+ (RRollList 10 (URoll (+ 5 6) 10)) 5)) 8))");
  ("5<3u6[6]<10", None);
  ("choice[A,B,C]どれにしよう", Some "(Choice ""A"" ""B"" ""C"")");
  ("choice[A,B, ]", Some "(Choice ""A"" ""B"")");
  ("Choice[ A, B,   C     ,D ]", Some "(Choice ""A"" ""B"" ""C"" ""D"")");
  ("choice[1+2, (3*4), 5d6]", Some "(Choice ""1+2"" ""(3*4)"" ""5d6"")");
  ("choice[forgetting R_BRACKET!", None)].
Definition opt_eqb (a b : option string) : bool :=
  match a, b with Some x, Some y => String.eqb x y | None, None => true | _, _ => false end.
Example conform_parser : filter (fun p => negb (opt_eqb (parse_sexp (fst p)) (snd p))) parser_cases = [].
Proof. vm_compute. reflexivity. Qed.

(** Regular expressions: leftmost-first, greedy, the last turn of a repeated group *)
Example re_command_args : match_command (".eval a" ++ nl ++ " b c")%string = Some ("eval", "b c")%string /\ match_command ".eval"%string = Some ("eval", "")%string /\
  match_command ".roll  2 6"%string = Some ("roll", "2 6")%string /\ match_command ".ro12"%string = Some ("ro", "")%string /\ match_command ". eval"%string = None /\
  match_command ".eval  "%string = Some ("eval", " ")%string.
Proof. repeat split; vm_compute; reflexivity. Qed.
Example re_others : first_part "2D6 あ 3"%string = "2D6"%string /\ first_part " x"%string = ""%string /\ trim_right_spaces "a b  "%string = "a b"%string /\ match_die " 3/6 "%string = Some ("3", "6")%string /\
  match_die "3 /6"%string = None /\ match_roll "2 6"%string = Some ("2", "6")%string /\ match_roll "26"%string = None.
Proof. repeat split; vm_compute; reflexivity. Qed.
