(** The test data of the repository, pkg/dicebot/gamesystem/basic/testdata, as the files are (generated by tools/mktestdata.py), and
    the test of the basic dice bot, pkg/dicebot/gamesystem/basic/basic_test.go:10-27 [TestDiceBot], run by the model of the test runner. *)
From Verif Require Import Runner.
Open Scope string_scope.

Definition file_calc : string := "input:
C(1+2)
output:
DiceBot : C(1+2) ＞ 計算結果 ＞ 3
rand:
============================
input:
C(2-1)
output:
DiceBot : C(2-1) ＞ 計算結果 ＞ 1
rand:
============================
input:
C(1-2)
output:
DiceBot : C(1-2) ＞ 計算結果 ＞ -1
rand:
============================
input:
C(2*3)
output:
DiceBot : C(2*3) ＞ 計算結果 ＞ 6
rand:
============================
input:
C(6/2)
output:
DiceBot : C(6/2) ＞ 計算結果 ＞ 3
rand:
============================
input:
C(2/3)
output:
DiceBot : C(2/3) ＞ 計算結果 ＞ 0
rand:
============================
input:
C(12/3-2*6)
output:
DiceBot : C(12/3-2*6) ＞ 計算結果 ＞ -8
rand:
============================
input:
C(99/21*11-23+57/3*7+13-17)
output:
DiceBot : C(99/21*11-23+57/3*7+13-17) ＞ 計算結果 ＞ 150
rand:
============================
input:
C(20+10)
output:
DiceBot : C(20+10) ＞ 計算結果 ＞ 30
rand:
============================
input:
C(10*5)
output:
DiceBot : C(10*5) ＞ 計算結果 ＞ 50
rand:
============================
input:
c(30-10/2)
output:
DiceBot : C(30-10/2) ＞ 計算結果 ＞ 25
rand:
============================
input:
c((10+10)*9)
output:
DiceBot : C((10+10)*9) ＞ 計算結果 ＞ 180
rand:
============================
input:
C(10+5) mokekeke
output:
DiceBot : C(10+5) ＞ 計算結果 ＞ 15
rand:
============================
input:
C(10/2+(5*2)-(3+1))
output:
DiceBot : C(10/2+5*2-(3+1)) ＞ 計算結果 ＞ 11
rand:
============================
input:
C(5-(1-2))
output:
DiceBot : C(5-(1-2)) ＞ 計算結果 ＞ 6
rand:
============================
input:
C(10/2)
output:
DiceBot : C(10/2) ＞ 計算結果 ＞ 5
rand:
============================
input:
C(-1-1)
output:
DiceBot : C(-1-1) ＞ 計算結果 ＞ -2
rand:
============================
input:
C(-1--1)
output:
DiceBot : C(-1-(-1)) ＞ 計算結果 ＞ 0
rand:
============================
input:
C(-1---1)
output:
DiceBot : C(-1-(-(-1))) ＞ 計算結果 ＞ -2
rand:
============================
input:
C(-1----1)
output:
DiceBot : C(-1-(-(-(-1)))) ＞ 計算結果 ＞ 0
rand:
============================
input:
C(-1)
output:
DiceBot : C(-1) ＞ 計算結果 ＞ -1
rand:
============================
input:
C((-1)*(-1))
output:
DiceBot : C(-1*(-1)) ＞ 計算結果 ＞ 1
rand:
============================
input:
C(-1*-1)
output:
DiceBot : C(-1*(-1)) ＞ 計算結果 ＞ 1
rand:
============================
input:
C(5/-1)
output:
DiceBot : C(5/(-1)) ＞ 計算結果 ＞ -5
rand:
============================
input:
C(10/2)
output:
DiceBot : C(10/2) ＞ 計算結果 ＞ 5
rand:
============================
input:
C(1+(128/2)/2)
output:
DiceBot : C(1+128/2/2) ＞ 計算結果 ＞ 33
rand:
============================
input:
C(-1+-1)
output:
DiceBot : C(-1+(-1)) ＞ 計算結果 ＞ -2
rand:
============================
input:
C(-1+-1*2-32/8)
output:
DiceBot : C(-1+(-1)*2-32/8) ＞ 計算結果 ＞ -7
rand:
============================
input:
C(-20/-10)
output:
DiceBot : C(-20/(-10)) ＞ 計算結果 ＞ 2
rand:
============================
input:
C(-20/5)
output:
DiceBot : C(-20/5) ＞ 計算結果 ＞ -4
rand:
============================
input:
C(20/-4)
output:
DiceBot : C(20/(-4)) ＞ 計算結果 ＞ -5
rand:
============================
input:
C(5)
output:
DiceBot : C(5) ＞ 計算結果 ＞ 5
rand:
============================
input:
C(10)
output:
DiceBot : C(10) ＞ 計算結果 ＞ 10
rand:
============================
input:
C(42)
output:
DiceBot : C(42) ＞ 計算結果 ＞ 42
rand:
============================
input:
C(65535)
output:
DiceBot : C(65535) ＞ 計算結果 ＞ 65535
rand:
============================
input:
C(-5)
output:
DiceBot : C(-5) ＞ 計算結果 ＞ -5
rand:
============================
input:
C(-10)
output:
DiceBot : C(-10) ＞ 計算結果 ＞ -10
rand:
============================
input:
C(-42)
output:
DiceBot : C(-42) ＞ 計算結果 ＞ -42
rand:
============================
input:
C(-65535)
output:
DiceBot : C(-65535) ＞ 計算結果 ＞ -65535
rand:
============================
input:
C(+5)
output:
DiceBot : C(5) ＞ 計算結果 ＞ 5
rand:
============================
input:
C(+10)
output:
DiceBot : C(10) ＞ 計算結果 ＞ 10
rand:
============================
input:
C(+42)
output:
DiceBot : C(42) ＞ 計算結果 ＞ 42
rand:
============================
input:
C(+65535)
output:
DiceBot : C(65535) ＞ 計算結果 ＞ 65535
rand:
============================
input:
C(1+2)
output:
DiceBot : C(1+2) ＞ 計算結果 ＞ 3
rand:
============================
input:
C(1-2)
output:
DiceBot : C(1-2) ＞ 計算結果 ＞ -1
rand:
============================
input:
C(1*2)
output:
DiceBot : C(1*2) ＞ 計算結果 ＞ 2
rand:
============================
input:
C(1/2)
output:
DiceBot : C(1/2) ＞ 計算結果 ＞ 0
rand:
============================
input:
C(-1+2)
output:
DiceBot : C(-1+2) ＞ 計算結果 ＞ 1
rand:
============================
input:
C(+1+2)
output:
DiceBot : C(1+2) ＞ 計算結果 ＞ 3
rand:
============================
input:
C(1+2-3)
output:
DiceBot : C(1+2-3) ＞ 計算結果 ＞ 0
rand:
============================
input:
C(1*2+3)
output:
DiceBot : C(1*2+3) ＞ 計算結果 ＞ 5
rand:
============================
input:
C(1/2+3)
output:
DiceBot : C(1/2+3) ＞ 計算結果 ＞ 3
rand:
============================
input:
C(1+2*3)
output:
DiceBot : C(1+2*3) ＞ 計算結果 ＞ 7
rand:
============================
input:
C(1+2/3)
output:
DiceBot : C(1+2/3) ＞ 計算結果 ＞ 1
rand:
============================
input:
C(1+(2-3))
output:
DiceBot : C(1+2-3) ＞ 計算結果 ＞ 0
rand:
============================
input:
C((1+2)*3)
output:
DiceBot : C((1+2)*3) ＞ 計算結果 ＞ 9
rand:
============================
input:
C((1+2)/3)
output:
DiceBot : C((1+2)/3) ＞ 計算結果 ＞ 1
rand:
============================
input:
C(-(1+2))
output:
DiceBot : C(-(1+2)) ＞ 計算結果 ＞ -3
rand:
============================
input:
C(+(1+2))
output:
DiceBot : C(1+2) ＞ 計算結果 ＞ 3
rand:
============================
input:
C(1+50/3-2)
output:
DiceBot : C(1+50/3-2) ＞ 計算結果 ＞ 15
rand:
============================
input:
C(1+50/3u-2)
output:
DiceBot : C(1+50/3U-2) ＞ 計算結果 ＞ 16
rand:
============================
input:
C(1+50/3r-2)
output:
DiceBot : C(1+50/3R-2) ＞ 計算結果 ＞ 16
rand:
============================
input:
C(1+100/3-2)
output:
DiceBot : C(1+100/3-2) ＞ 計算結果 ＞ 32
rand:
============================
input:
C(1+100/3u-2)
output:
DiceBot : C(1+100/3U-2) ＞ 計算結果 ＞ 33
rand:
============================
input:
C(1+100/3r-2)
output:
DiceBot : C(1+100/3R-2) ＞ 計算結果 ＞ 32
rand:
".
Definition file_d_roll_expr : string := "input:
2D6
output:
DiceBot : (2D6) ＞ 8[5,3] ＞ 8
rand:5/6,3/6
============================
input:
2D4
output:
DiceBot : (2D4) ＞ 3[1,2] ＞ 3
rand:1/4,2/4
============================
input:
2D6+1
output:
DiceBot : (2D6+1) ＞ 8[2,6]+1 ＞ 9
rand:2/6,6/6
============================
input:
1+2D6
output:
DiceBot : (1+2D6) ＞ 1+7[4,3] ＞ 8
rand:4/6,3/6
============================
input:
2d6+1-1-2-3-4
output:
DiceBot : (2D6+1-1-2-3-4) ＞ 7[1,6]+1-1-2-3-4 ＞ -2
rand:1/6,6/6
============================
input:
2D6+4D10
output:
DiceBot : (2D6+4D10) ＞ 9[5,4]+21[1,9,7,4] ＞ 30
rand:5/6,4/6,1/10,9/10,7/10,4/10
============================
input:
2d6*3
output:
DiceBot : (2D6*3) ＞ 6[2,4]*3 ＞ 18
rand:2/6,4/6
============================
input:
2d10+3-4
output:
DiceBot : (2D10+3-4) ＞ 8[3,5]+3-4 ＞ 7
rand:3/10,5/10
============================
input:
2d10+3*4
output:
DiceBot : (2D10+3*4) ＞ 8[3,5]+3*4 ＞ 20
rand:3/10,5/10
============================
input:
2d6*3-1d6+1
output:
DiceBot : (2D6*3-1D6+1) ＞ 8[6,2]*3-3[3]+1 ＞ 22
rand:6/6,2/6,3/6
============================
input:
(2+3)d6-1+3d6+2
output:
DiceBot : (5D6-1+3D6+2) ＞ 17[2,3,1,5,6]-1+13[5,4,4]+2 ＞ 31
rand:2/6,3/6,1/6,5/6,6/6,5/6,4/6,4/6
============================
input:
(2*3-4)d6-1d4+1
output:
DiceBot : (2D6-1D4+1) ＞ 11[6,5]-2[2]+1 ＞ 10
rand:6/6,5/6,2/4
============================
input:
((2+3)*4/3)d6*2+5
output:
DiceBot : (6D6*2+5) ＞ 24[6,5,6,2,1,4]*2+5 ＞ 53
rand:6/6,5/6,6/6,2/6,1/6,4/6
============================
input:
1D6/2
output:
DiceBot : (1D6/2) ＞ 1[1]/2 ＞ 0
rand:1/6
============================
input:
3D6/2
output:
DiceBot : (3D6/2) ＞ 7[1,2,4]/2 ＞ 3
rand:1/6,2/6,4/6
============================
input:
3D6/2+1D6
output:
DiceBot : (3D6/2+1D6) ＞ 7[1,2,4]/2+5[5] ＞ 8
rand:1/6,2/6,4/6,5/6
============================
input:
3D6+1D6/2
output:
DiceBot : (3D6+1D6/2) ＞ 7[1,2,4]+5[5]/2 ＞ 9
rand:1/6,2/6,4/6,5/6
============================
input:
3D6+1D6/2U
output:
DiceBot : (3D6+1D6/2U) ＞ 7[1,2,4]+5[5]/2U ＞ 10
rand:1/6,2/6,4/6,5/6
============================
input:
5D6/10
output:
DiceBot : (5D6/10) ＞ 29[6,6,6,6,5]/10 ＞ 2
rand:6/6,6/6,6/6,6/6,5/6
============================
input:
3D6/2U
output:
DiceBot : (3D6/2U) ＞ 7[1,2,4]/2U ＞ 4
rand:1/6,2/6,4/6
============================
input:
5D6/10u
output:
DiceBot : (5D6/10U) ＞ 21[6,6,6,2,1]/10U ＞ 3
rand:6/6,6/6,6/6,2/6,1/6
============================
input:
1D100/10R
output:
DiceBot : (1D100/10R) ＞ 55[55]/10R ＞ 6
rand:55/100
============================
input:
1D100/10r
output:
DiceBot : (1D100/10R) ＞ 54[54]/10R ＞ 5
rand:54/100
============================
input:
[1...5]D6
output:
DiceBot : (4D6) ＞ 15[5,3,4,3] ＞ 15
rand:4/5,5/6,3/6,4/6,3/6
============================
input:
([2...4]+2)D10
output:
DiceBot : (6D10) ＞ 29[8,7,2,1,6,5] ＞ 29
rand:3/3,8/10,7/10,2/10,1/10,6/10,5/10
============================
input:
[(2+3)...8]D6
output:
DiceBot : (5D6) ＞ 14[1,2,4,6,1] ＞ 14
rand:1/4,1/6,2/6,4/6,6/6,1/6
============================
input:
[5...(7+1)]D6
output:
DiceBot : (5D6) ＞ 14[1,2,4,6,1] ＞ 14
rand:1/4,1/6,2/6,4/6,6/6,1/6
============================
input:
2d[1...5]
output:
DiceBot : (2D2) ＞ 3[1,2] ＞ 3
rand:2/5,1/2,2/2
============================
input:
2d([2...4]+2)
output:
DiceBot : (2D5) ＞ 7[4,3] ＞ 7
rand:2/3,4/5,3/5
============================
input:
2d[(2+3)...8]
output:
DiceBot : (2D8) ＞ 10[3,7] ＞ 10
rand:4/4,3/8,7/8
============================
input:
2d[5...(7+1)]
output:
DiceBot : (2D8) ＞ 10[3,7] ＞ 10
rand:4/4,3/8,7/8
============================
input:
[1...5]d(2*3)
output:
DiceBot : (5D6) ＞ 20[3,5,1,5,6] ＞ 20
rand:5/5,3/6,5/6,1/6,5/6,6/6
============================
input:
(1+1)d[1...5]
output:
DiceBot : (2D4) ＞ 7[3,4] ＞ 7
rand:4/5,3/4,4/4
============================
input:
([1...4]+1)d([2...4]+2)-1
output:
DiceBot : (3D6-1) ＞ 14[5,5,4]-1 ＞ 13
rand:2/4,3/3,5/6,5/6,4/6
============================
input:
1D6/0
output:
rand:1/6
============================
input:
1D6/3x
output:
rand:
".
Definition file_d_roll_comp : string := "input:
2D6=7
output:
DiceBot : (2D6=7) ＞ 7[3,4] ＞ 7 ＞ 成功
rand:3/6,4/6
============================
input:
2D6=7
output:
DiceBot : (2D6=7) ＞ 6[3,3] ＞ 6 ＞ 失敗
rand:3/6,3/6
============================
input:
2D6=7
output:
DiceBot : (2D6=7) ＞ 6[3,3] ＞ 6 ＞ 失敗
rand:3/6,3/6
============================
input:
2D6+1=3+4
output:
DiceBot : (2D6+1=7) ＞ 6[2,4]+1 ＞ 7 ＞ 成功
rand:2/6,4/6
============================
input:
2D6+1=3+4
output:
DiceBot : (2D6+1=7) ＞ 7[3,4]+1 ＞ 8 ＞ 失敗
rand:3/6,4/6
============================
input:
2D6<>7
output:
DiceBot : (2D6<>7) ＞ 7[3,4] ＞ 7 ＞ 失敗
rand:3/6,4/6
============================
input:
2D6<>7
output:
DiceBot : (2D6<>7) ＞ 6[3,3] ＞ 6 ＞ 成功
rand:3/6,3/6
============================
input:
2D6<>7
output:
DiceBot : (2D6<>7) ＞ 8[3,5] ＞ 8 ＞ 成功
rand:3/6,5/6
============================
input:
2D6<7
output:
DiceBot : (2D6<7) ＞ 6[3,3] ＞ 6 ＞ 成功
rand:3/6,3/6
============================
input:
2D6<7
output:
DiceBot : (2D6<7) ＞ 7[3,4] ＞ 7 ＞ 失敗
rand:3/6,4/6
============================
input:
2D6>7
output:
DiceBot : (2D6>7) ＞ 8[3,5] ＞ 8 ＞ 成功
rand:3/6,5/6
============================
input:
2D6>7
output:
DiceBot : (2D6>7) ＞ 7[3,4] ＞ 7 ＞ 失敗
rand:3/6,4/6
============================
input:
2D6<=7
output:
DiceBot : (2D6<=7) ＞ 7[3,4] ＞ 7 ＞ 成功
rand:3/6,4/6
============================
input:
2D6<=7
output:
DiceBot : (2D6<=7) ＞ 8[3,5] ＞ 8 ＞ 失敗
rand:3/6,5/6
============================
input:
2D6>=7
output:
DiceBot : (2D6>=7) ＞ 7[3,4] ＞ 7 ＞ 成功
rand:3/6,4/6
============================
input:
2D6>=7
output:
DiceBot : (2D6>=7) ＞ 6[3,3] ＞ 6 ＞ 失敗
rand:3/6,3/6
============================
input:
-2D6<-7
output:
DiceBot : (-2D6<-7) ＞ -8[3,5] ＞ -8 ＞ 成功
rand:3/6,5/6
============================
input:
-2D6<-7
output:
DiceBot : (-2D6<-7) ＞ -7[3,4] ＞ -7 ＞ 失敗
rand:3/6,4/6
============================
input:
-2D6>-7
output:
DiceBot : (-2D6>-7) ＞ -6[3,3] ＞ -6 ＞ 成功
rand:3/6,3/6
============================
input:
-2D6>-7
output:
DiceBot : (-2D6>-7) ＞ -7[3,4] ＞ -7 ＞ 失敗
rand:3/6,4/6
============================
input:
-2D6<=-7
output:
DiceBot : (-2D6<=-7) ＞ -7[3,4] ＞ -7 ＞ 成功
rand:3/6,4/6
============================
input:
-2D6<=-7
output:
DiceBot : (-2D6<=-7) ＞ -6[3,3] ＞ -6 ＞ 失敗
rand:3/6,3/6
============================
input:
-2D6>=-7
output:
DiceBot : (-2D6>=-7) ＞ -7[3,4] ＞ -7 ＞ 成功
rand:3/6,4/6
============================
input:
-2D6>=-7
output:
DiceBot : (-2D6>=-7) ＞ -8[3,5] ＞ -8 ＞ 失敗
rand:3/6,5/6
".
Definition file_b_roll_list : string := "input:
2b6
output:
DiceBot : (2B6) ＞ 3,4
rand:3/6,4/6
============================
input:
2b6
output:
DiceBot : (2B6) ＞ 6,1
rand:6/6,1/6
============================
input:
[1...3]b6
output:
DiceBot : (1B6) ＞ 5
rand:1/3,5/6
============================
input:
[1...3]b6
output:
DiceBot : (3B6) ＞ 2,4,6
rand:3/3,2/6,4/6,6/6
============================
input:
2b[4...6]
output:
DiceBot : (2B4) ＞ 3,4
rand:1/3,3/4,4/4
============================
input:
2b[4...6]
output:
DiceBot : (2B5) ＞ 5,1
rand:2/3,5/5,1/5
============================
input:
[1...3]b[4...6]
output:
DiceBot : (3B6) ＞ 6,4,3
rand:3/3,3/3,6/6,4/6,3/6
============================
input:
(1*2)b6
output:
DiceBot : (2B6) ＞ 3,4
rand:3/6,4/6
============================
input:
([1...3]+1)b6
output:
DiceBot : (3B6) ＞ 2,4,3
rand:2/3,2/6,4/6,3/6
============================
input:
2b(2+4)
output:
DiceBot : (2B6) ＞ 3,4
rand:3/6,4/6
============================
input:
2b([3...5]+1)
output:
DiceBot : (2B5) ＞ 1,3
rand:2/3,1/5,3/5
============================
input:
[1...5]b(2*3)
output:
DiceBot : (5B6) ＞ 3,5,1,5,6
rand:5/5,3/6,5/6,1/6,5/6,6/6
============================
input:
(1+1)b[1...5]
output:
DiceBot : (2B4) ＞ 3,4
rand:4/5,3/4,4/4
============================
input:
(1*2)b(2+4)
output:
DiceBot : (2B6) ＞ 4,3
rand:4/6,3/6
============================
input:
2b6+4b10
output:
DiceBot : (2B6+4B10) ＞ 1,3,1,10,3,1
rand:1/6,3/6,1/10,10/10,3/10,1/10
============================
input:
2b6+4b10
output:
DiceBot : (2B6+4B10) ＞ 3,2,5,7,1,3
rand:3/6,2/6,5/10,7/10,1/10,3/10
============================
input:
2b6+3b8+5b12
output:
DiceBot : (2B6+3B8+5B12) ＞ 3,4,7,1,5,11,3,4,10,9
rand:3/6,4/6,7/8,1/8,5/8,11/12,3/12,4/12,10/12,9/12
".
Definition file_b_roll_comp : string := "input:
2b6=3
output:
DiceBot : (2B6=3) ＞ 3,4 ＞ 成功数1
rand:3/6,4/6
============================
input:
2b6=3
output:
DiceBot : (2B6=3) ＞ 2,1 ＞ 成功数0
rand:2/6,1/6
============================
input:
2b6<>3
output:
DiceBot : (2B6<>3) ＞ 3,4 ＞ 成功数1
rand:3/6,4/6
============================
input:
2b6<>3
output:
DiceBot : (2B6<>3) ＞ 2,1 ＞ 成功数2
rand:2/6,1/6
============================
input:
2b6>3
output:
DiceBot : (2B6>3) ＞ 3,4 ＞ 成功数1
rand:3/6,4/6
============================
input:
2b6>3
output:
DiceBot : (2B6>3) ＞ 2,1 ＞ 成功数0
rand:2/6,1/6
============================
input:
2b6<3
output:
DiceBot : (2B6<3) ＞ 3,4 ＞ 成功数0
rand:3/6,4/6
============================
input:
2b6<3
output:
DiceBot : (2B6<3) ＞ 2,1 ＞ 成功数2
rand:2/6,1/6
============================
input:
2b6>=3
output:
DiceBot : (2B6>=3) ＞ 3,4 ＞ 成功数2
rand:3/6,4/6
============================
input:
2b6>=3
output:
DiceBot : (2B6>=3) ＞ 2,1 ＞ 成功数0
rand:2/6,1/6
============================
input:
2b6<=3
output:
DiceBot : (2B6<=3) ＞ 3,4 ＞ 成功数1
rand:3/6,4/6
============================
input:
2b6<=3
output:
DiceBot : (2B6<=3) ＞ 2,1 ＞ 成功数2
rand:2/6,1/6
============================
input:
2b6+4b10>3
output:
DiceBot : (2B6+4B10>3) ＞ 3,4,9,7,1,5 ＞ 成功数4
rand:3/6,4/6,9/10,7/10,1/10,5/10
============================
input:
2b6+4b10>3
output:
DiceBot : (2B6+4B10>3) ＞ 3,2,5,7,1,3 ＞ 成功数2
rand:3/6,2/6,5/10,7/10,1/10,3/10
============================
input:
2b6+3b8+5b12<5
output:
DiceBot : (2B6+3B8+5B12<5) ＞ 5,2,7,3,4,11,9,8,12,6 ＞ 成功数3
rand:5/6,2/6,7/8,3/8,4/8,11/12,9/12,8/12,12/12,6/12
============================
input:
2b6+3b8+5b12<5
output:
DiceBot : (2B6+3B8+5B12<5) ＞ 3,4,7,1,5,11,3,4,10,9 ＞ 成功数5
rand:3/6,4/6,7/8,1/8,5/8,11/12,3/12,4/12,10/12,9/12
============================
input:
[1...3]b6>3
output:
DiceBot : (1B6>3) ＞ 5 ＞ 成功数1
rand:1/3,5/6
============================
input:
[1...3]b6>3
output:
DiceBot : (3B6>3) ＞ 2,4,6 ＞ 成功数2
rand:3/3,2/6,4/6,6/6
============================
input:
2b[4...6]>3
output:
DiceBot : (2B4>3) ＞ 3,4 ＞ 成功数1
rand:1/3,3/4,4/4
============================
input:
2b[4...6]>3
output:
DiceBot : (2B5>3) ＞ 5,1 ＞ 成功数1
rand:2/3,5/5,1/5
============================
input:
[1...3]b[4...6]>3
output:
DiceBot : (3B6>3) ＞ 6,4,3 ＞ 成功数2
rand:3/3,3/3,6/6,4/6,3/6
============================
input:
(1*2)b6>3
output:
DiceBot : (2B6>3) ＞ 3,4 ＞ 成功数1
rand:3/6,4/6
============================
input:
([1...3]+1)b6>3
output:
DiceBot : (3B6>3) ＞ 2,4,3 ＞ 成功数1
rand:2/3,2/6,4/6,3/6
============================
input:
2b(2+4)>3
output:
DiceBot : (2B6>3) ＞ 3,4 ＞ 成功数1
rand:3/6,4/6
============================
input:
2b([3...5]+1)>3
output:
DiceBot : (2B5>3) ＞ 1,3 ＞ 成功数0
rand:2/3,1/5,3/5
============================
input:
(1*2)b(2+4)>3
output:
DiceBot : (2B6>3) ＞ 4,3 ＞ 成功数1
rand:4/6,3/6
============================
input:
2b6>=1+3
output:
DiceBot : (2B6>=4) ＞ 4,3 ＞ 成功数1
rand:4/6,3/6
".
Definition file_r_roll_list : string := "input:
2R6
output:
DiceBot : (2R6) ＞ 2R6>=5 あるいは 2R6[5] のように振り足し目標値を指定してください
rand:
============================
input:
2r6[1]
output:
DiceBot : (2R6[1]) ＞ 振り足し目標値として2以上の整数を指定してください
rand:
============================
input:
2R6[3]
output:
DiceBot : (2R6[3]) ＞ 3,1 + 2
rand:3/6,1/6,2/6
============================
input:
2R6[3]
output:
DiceBot : (2R6[3]) ＞ 6,1 + 3 + 1
rand:6/6,1/6,3/6,1/6
============================
input:
12R6[6]
output:
DiceBot : (12R6[6]) ＞ 4,1,5,4,3,2,5,1,6,3,2,5 + 5
rand:4/6,1/6,5/6,4/6,3/6,2/6,5/6,1/6,6/6,3/6,2/6,5/6,5/6
============================
input:
12R6[6]
output:
DiceBot : (12R6[6]) ＞ 2,4,4,5,4,1,2,6,6,6,1,4 + 6,4,6 + 3,4
rand:2/6,4/6,4/6,5/6,4/6,1/6,2/6,6/6,6/6,6/6,1/6,4/6,6/6,4/6,6/6,3/6,4/6
============================
input:
12R6[6]
output:
DiceBot : (12R6[6]) ＞ 2,5,4,5,3,1,3,4,2,2,4,5
rand:2/6,5/6,4/6,5/6,3/6,1/6,3/6,4/6,2/6,2/6,4/6,5/6
============================
input:
2R4+2R6[4]
output:
DiceBot : (2R4+2R6[4]) ＞ 4,3 + 3,5 + 1 + 2
rand:4/4,3/4,3/6,5/6,1/4,2/6
".
Definition file_r_roll_comp : string := "input:
2r6>=1
output:
DiceBot : (2R6[1]>=1) ＞ 振り足し目標値として2以上の整数を指定してください
rand:
============================
input:
2r6=3
output:
DiceBot : (2R6[3]=3) ＞ 3,1 + 2 ＞ 成功数1
rand:3/6,1/6,2/6
============================
input:
2r6=3
output:
DiceBot : (2R6[3]=3) ＞ 6,1 + 3 + 1 ＞ 成功数1
rand:6/6,1/6,3/6,1/6
============================
input:
2R6<>3
output:
DiceBot : (2R6[3]<>3) ＞ 3,1 + 2 ＞ 成功数2
rand:3/6,1/6,2/6
============================
input:
2R6<>3
output:
DiceBot : (2R6[3]<>3) ＞ 6,1 + 3 + 1 ＞ 成功数3
rand:6/6,1/6,3/6,1/6
============================
input:
2R6>3
output:
DiceBot : (2R6[3]>3) ＞ 3,1 + 2 ＞ 成功数0
rand:3/6,1/6,2/6
============================
input:
2R6>3
output:
DiceBot : (2R6[3]>3) ＞ 6,1 + 3 + 1 ＞ 成功数1
rand:6/6,1/6,3/6,1/6
============================
input:
2R6<3
output:
DiceBot : (2R6[3]<3) ＞ 3,1 + 2 ＞ 成功数2
rand:3/6,1/6,2/6
============================
input:
2R6<3
output:
DiceBot : (2R6[3]<3) ＞ 6,1 + 3 + 1 ＞ 成功数2
rand:6/6,1/6,3/6,1/6
============================
input:
2R6>=3
output:
DiceBot : (2R6[3]>=3) ＞ 3,1 + 2 ＞ 成功数1
rand:3/6,1/6,2/6
============================
input:
2R6>=3
output:
DiceBot : (2R6[3]>=3) ＞ 6,1 + 3 + 1 ＞ 成功数2
rand:6/6,1/6,3/6,1/6
============================
input:
2R6<=3
output:
DiceBot : (2R6[3]<=3) ＞ 3,1 + 2 ＞ 成功数3
rand:3/6,1/6,2/6
============================
input:
2R6<=3
output:
DiceBot : (2R6[3]<=3) ＞ 6,1 + 3 + 1 ＞ 成功数3
rand:6/6,1/6,3/6,1/6
============================
input:
12R6>=6
output:
DiceBot : (12R6[6]>=6) ＞ 4,1,5,4,3,2,5,1,6,3,2,5 + 5 ＞ 成功数1
rand:4/6,1/6,5/6,4/6,3/6,2/6,5/6,1/6,6/6,3/6,2/6,5/6,5/6
============================
input:
12R6>=6
output:
DiceBot : (12R6[6]>=6) ＞ 6,1,2,2,2,1,5,5,1,5,2,6 + 4,5 ＞ 成功数2
rand:6/6,1/6,2/6,2/6,2/6,1/6,5/6,5/6,1/6,5/6,2/6,6/6,4/6,5/6
============================
input:
12R6>=6
output:
DiceBot : (12R6[6]>=6) ＞ 2,4,4,5,4,1,2,6,6,6,1,4 + 6,4,6 + 3,4 ＞ 成功数5
rand:2/6,4/6,4/6,5/6,4/6,1/6,2/6,6/6,6/6,6/6,1/6,4/6,6/6,4/6,6/6,3/6,4/6
============================
input:
12R6>=6
output:
DiceBot : (12R6[6]>=6) ＞ 2,5,4,5,3,1,3,4,2,2,4,5 ＞ 成功数0
rand:2/6,5/6,4/6,5/6,3/6,1/6,3/6,4/6,2/6,2/6,4/6,5/6
============================
input:
12R6>=6
output:
DiceBot : (12R6[6]>=6) ＞ 5,3,5,3,1,1,6,3,2,2,5,5 + 6 + 4 ＞ 成功数2
rand:5/6,3/6,5/6,3/6,1/6,1/6,6/6,3/6,2/6,2/6,5/6,5/6,6/6,4/6
============================
input:
12R6>=6
output:
DiceBot : (12R6[6]>=6) ＞ 4,4,2,1,5,6,5,1,1,4,4,6 + 3,6 + 2 ＞ 成功数3
rand:4/6,4/6,2/6,1/6,5/6,6/6,5/6,1/6,1/6,4/6,4/6,6/6,3/6,6/6,2/6
============================
input:
12R6>=6
output:
DiceBot : (12R6[6]>=6) ＞ 2,1,2,5,2,3,1,3,4,4,4,5 ＞ 成功数0
rand:2/6,1/6,2/6,5/6,2/6,3/6,1/6,3/6,4/6,4/6,4/6,5/6
============================
input:
12R6>=6
output:
DiceBot : (12R6[6]>=6) ＞ 1,2,3,4,1,1,2,3,6,4,1,4 + 2 ＞ 成功数1
rand:1/6,2/6,3/6,4/6,1/6,1/6,2/6,3/6,6/6,4/6,1/6,4/6,2/6
============================
input:
12R6>=6
output:
DiceBot : (12R6[6]>=6) ＞ 4,3,6,2,2,1,3,5,1,3,2,1 + 6 + 2 ＞ 成功数2
rand:4/6,3/6,6/6,2/6,2/6,1/6,3/6,5/6,1/6,3/6,2/6,1/6,6/6,2/6
============================
input:
12R6>=6
output:
DiceBot : (12R6[6]>=6) ＞ 6,6,3,1,4,2,4,5,4,3,6,6 + 4,4,3,4 ＞ 成功数4
rand:6/6,6/6,3/6,1/6,4/6,2/6,4/6,5/6,4/6,3/6,6/6,6/6,4/6,4/6,3/6,4/6
============================
input:
2R4+2R6>=4
output:
DiceBot : (2R4+2R6[4]>=4) ＞ 4,3 + 3,5 + 1 + 2 ＞ 成功数2
rand:4/4,3/4,3/6,5/6,1/4,2/6
============================
input:
2R6[3]>=4
output:
DiceBot : (2R6[3]>=4) ＞ 6,1 + 3 + 1 ＞ 成功数1
rand:6/6,1/6,3/6,1/6
".
Definition file_u_roll_expr : string := "input:
3u6
output:
DiceBot : (3U6) ＞ 2U6[5] のように振り足し目標値を指定してください
rand:
============================
input:
3u6[1]
output:
DiceBot : (3U6[1]) ＞ 振り足し目標値として2以上の整数を指定してください
rand:
============================
input:
1U6[3]
output:
DiceBot : (1U6[3]) ＞ 5[3,2] ＞ 5/5 (最大/合計)
rand:3/6,2/6
============================
input:
3u6[6]
output:
DiceBot : (3U6[6]) ＞ 11[6,5],7[6,1],7[6,1] ＞ 11/25 (最大/合計)
rand:6/6,5/6,6/6,1/6,6/6,1/6
============================
input:
(1+2)u6[6]
output:
DiceBot : (3U6[6]) ＞ 11[6,5],7[6,1],7[6,1] ＞ 11/25 (最大/合計)
rand:6/6,5/6,6/6,1/6,6/6,1/6
============================
input:
3u(2*3)[6]
output:
DiceBot : (3U6[6]) ＞ 11[6,5],7[6,1],7[6,1] ＞ 11/25 (最大/合計)
rand:6/6,5/6,6/6,1/6,6/6,1/6
============================
input:
3u6[12/2]
output:
DiceBot : (3U6[6]) ＞ 11[6,5],7[6,1],7[6,1] ＞ 11/25 (最大/合計)
rand:6/6,5/6,6/6,1/6,6/6,1/6
============================
input:
6U6[4]
output:
DiceBot : (6U6[4]) ＞ 2,7[5,2],1,11[4,6,1],8[5,3],3 ＞ 11/32 (最大/合計)
rand:2/6,5/6,2/6,1/6,4/6,6/6,1/6,5/6,3/6,3/6
============================
input:
6U6[4]
output:
DiceBot : (6U6[4]) ＞ 7[4,3],1,1,23[4,6,6,4,3],1,14[6,5,3] ＞ 23/47 (最大/合計)
rand:4/6,3/6,1/6,1/6,4/6,6/6,6/6,4/6,3/6,1/6,6/6,5/6,3/6
============================
input:
1U100[96]+3
output:
DiceBot : (1U100[96]+3) ＞ 155[98,57]+3 ＞ 158/158 (最大/合計)
rand:98/100,57/100
============================
input:
3u6[5]
output:
DiceBot : (3U6[5]) ＞ 7[5,2],4,4 ＞ 7/15 (最大/合計)
rand:5/6,2/6,4/6,4/6
============================
input:
3u6[5]+10
output:
DiceBot : (3U6[5]+10) ＞ 7[5,2],4,4+10 ＞ 17/25 (最大/合計)
rand:5/6,2/6,4/6,4/6
============================
input:
3u6[5]-(-2-2*4)
output:
DiceBot : (3U6[5]+10) ＞ 7[5,2],4,4+10 ＞ 17/25 (最大/合計)
rand:5/6,2/6,4/6,4/6
============================
input:
3u6[5]-10
output:
DiceBot : (3U6[5]-10) ＞ 7[5,2],4,4-10 ＞ -3/5 (最大/合計)
rand:5/6,2/6,4/6,4/6
============================
input:
3u6[5]+(-2-2*4)
output:
DiceBot : (3U6[5]-10) ＞ 7[5,2],4,4-10 ＞ -3/5 (最大/合計)
rand:5/6,2/6,4/6,4/6
============================
input:
3u6+5u6[6]
output:
DiceBot : (3U6+5U6[6]) ＞ 3,5,3,10[6,4],1,15[6,6,3],5,1 ＞ 15/43 (最大/合計)
rand:3/6,5/6,3/6,6/6,4/6,1/6,6/6,6/6,3/6,5/6,1/6
============================
input:
(5+6)u10[10]+5
output:
DiceBot : (11U10[10]+5) ＞ 3,2,7,4,7,5,4,4,7,16[10,6],1+5 ＞ 21/65 (最大/合計)
rand:3/10,2/10,7/10,4/10,7/10,5/10,4/10,4/10,7/10,10/10,6/10,1/10
".
Definition file_u_roll_comp : string := "input:
3U6>=7
output:
DiceBot : (3U6>=7) ＞ 2U6[5] のように振り足し目標値を指定してください
rand:
============================
input:
3U6[1]>=7
output:
DiceBot : (3U6[1]>=7) ＞ 振り足し目標値として2以上の整数を指定してください
rand:
============================
input:
3u6[6]=7
output:
DiceBot : (3U6[6]=7) ＞ 11[6,5],7[6,1],5 ＞ 成功数1
rand:6/6,5/6,6/6,1/6,5/6
============================
input:
3u6[6]=7
output:
DiceBot : (3U6[6]=7) ＞ 11[6,5],7[6,1],7[6,1] ＞ 成功数2
rand:6/6,5/6,6/6,1/6,6/6,1/6
============================
input:
3u6[6]-4=7
output:
DiceBot : (3U6[6]-4=7) ＞ 11[6,5],7[6,1],5-4 ＞ 成功数1
rand:6/6,5/6,6/6,1/6,5/6
============================
input:
3u6[6]<>7
output:
DiceBot : (3U6[6]<>7) ＞ 11[6,5],7[6,1],5 ＞ 成功数2
rand:6/6,5/6,6/6,1/6,5/6
============================
input:
3u6[6]<>7
output:
DiceBot : (3U6[6]<>7) ＞ 11[6,5],7[6,1],7[6,1] ＞ 成功数1
rand:6/6,5/6,6/6,1/6,6/6,1/6
============================
input:
3u6[6]+1<>7
output:
DiceBot : (3U6[6]+1<>7) ＞ 11[6,5],7[6,1],5+1 ＞ 成功数3
rand:6/6,5/6,6/6,1/6,5/6
============================
input:
3u6[6]>6
output:
DiceBot : (3U6[6]>6) ＞ 11[6,5],7[6,1],5 ＞ 成功数2
rand:6/6,5/6,6/6,1/6,5/6
============================
input:
3u6[6]>6
output:
DiceBot : (3U6[6]>6) ＞ 11[6,5],7[6,1],7[6,1] ＞ 成功数3
rand:6/6,5/6,6/6,1/6,6/6,1/6
============================
input:
3u6[6]-1>6
output:
DiceBot : (3U6[6]-1>6) ＞ 11[6,5],7[6,1],5-1 ＞ 成功数1
rand:6/6,5/6,6/6,1/6,5/6
============================
input:
3u6[6]<6
output:
DiceBot : (3U6[6]<6) ＞ 11[6,5],7[6,1],5 ＞ 成功数1
rand:6/6,5/6,6/6,1/6,5/6
============================
input:
3u6[6]<6
output:
DiceBot : (3U6[6]<6) ＞ 11[6,5],7[6,1],7[6,1] ＞ 成功数0
rand:6/6,5/6,6/6,1/6,6/6,1/6
============================
input:
3u6[6]-2<6
output:
DiceBot : (3U6[6]-2<6) ＞ 11[6,5],7[6,1],5-2 ＞ 成功数2
rand:6/6,5/6,6/6,1/6,5/6
============================
input:
3u6[6]>=7
output:
DiceBot : (3U6[6]>=7) ＞ 11[6,5],7[6,1],5 ＞ 成功数2
rand:6/6,5/6,6/6,1/6,5/6
============================
input:
3u6[6]>=7
output:
DiceBot : (3U6[6]>=7) ＞ 11[6,5],7[6,1],7[6,1] ＞ 成功数3
rand:6/6,5/6,6/6,1/6,6/6,1/6
============================
input:
3u6[6]-1>=7
output:
DiceBot : (3U6[6]-1>=7) ＞ 11[6,5],7[6,1],5-1 ＞ 成功数1
rand:6/6,5/6,6/6,1/6,5/6
============================
input:
3u6[6]<=7
output:
DiceBot : (3U6[6]<=7) ＞ 11[6,5],7[6,1],5 ＞ 成功数2
rand:6/6,5/6,6/6,1/6,5/6
============================
input:
3u6[6]<=7
output:
DiceBot : (3U6[6]<=7) ＞ 11[6,5],7[6,1],7[6,1] ＞ 成功数2
rand:6/6,5/6,6/6,1/6,6/6,1/6
============================
input:
3u6[6]-4<=7
output:
DiceBot : (3U6[6]-4<=7) ＞ 11[6,5],7[6,1],5-4 ＞ 成功数3
rand:6/6,5/6,6/6,1/6,5/6
============================
input:
3u6+5u6[6]>=7
output:
DiceBot : (3U6+5U6[6]>=7) ＞ 3,5,3,10[6,4],1,15[6,6,3],5,1 ＞ 成功数2
rand:3/6,5/6,3/6,6/6,4/6,1/6,6/6,6/6,3/6,5/6,1/6
============================
input:
(5+6)u10[10]+5>=8
output:
DiceBot : (11U10[10]+5>=8) ＞ 3,2,7,4,7,5,4,4,7,16[10,6],1+5 ＞ 成功数9
rand:3/10,2/10,7/10,4/10,7/10,5/10,4/10,4/10,7/10,10/10,6/10,1/10
============================
input:
6U6[4]>=10
output:
DiceBot : (6U6[4]>=10) ＞ 2,7[5,2],1,11[4,6,1],8[5,3],3 ＞ 成功数1
rand:2/6,5/6,2/6,1/6,4/6,6/6,1/6,5/6,3/6,3/6
============================
input:
6U6[4]>=10
output:
DiceBot : (6U6[4]>=10) ＞ 7[5,2],14[6,6,2],1,1,3,9[6,3] ＞ 成功数1
rand:5/6,2/6,6/6,6/6,2/6,1/6,1/6,3/6,6/6,3/6
============================
input:
6U6[4]>=10
output:
DiceBot : (6U6[4]>=10) ＞ 7[4,3],1,1,23[4,6,6,4,3],1,14[6,5,3] ＞ 成功数2
rand:4/6,3/6,1/6,1/6,4/6,6/6,6/6,4/6,3/6,1/6,6/6,5/6,3/6
============================
input:
6U6[4]>=10
output:
DiceBot : (6U6[4]>=10) ＞ 2,3,7[5,2],8[5,3],2,14[6,6,2] ＞ 成功数1
rand:2/6,3/6,5/6,2/6,5/6,3/6,2/6,6/6,6/6,2/6
============================
input:
6U6[4]>=10
output:
DiceBot : (6U6[4]>=10) ＞ 13[6,4,3],16[4,6,4,2],7[5,2],8[6,2],18[6,5,4,3],12[5,5,2] ＞ 成功数4
rand:6/6,4/6,3/6,4/6,6/6,4/6,2/6,5/6,2/6,6/6,2/6,6/6,5/6,4/6,3/6,5/6,5/6,2/6
============================
input:
6U6[4]>=10
output:
DiceBot : (6U6[4]>=10) ＞ 1,10[5,4,1],8[5,3],11[5,5,1],2,8[6,2] ＞ 成功数2
rand:1/6,5/6,4/6,1/6,5/6,3/6,5/6,5/6,1/6,2/6,6/6,2/6
============================
input:
6U6[4]>=10
output:
DiceBot : (6U6[4]>=10) ＞ 1,3,2,6[4,2],1,11[6,4,1] ＞ 成功数1
rand:1/6,3/6,2/6,4/6,2/6,1/6,6/6,4/6,1/6
============================
input:
6U6[4]>=10
output:
DiceBot : (6U6[4]>=10) ＞ 3,1,12[5,4,3],1,13[6,4,3],13[5,5,3] ＞ 成功数3
rand:3/6,1/6,5/6,4/6,3/6,1/6,6/6,4/6,3/6,5/6,5/6,3/6
============================
input:
6U6[4]>=10
output:
DiceBot : (6U6[4]>=10) ＞ 11[5,4,2],3,6[4,2],3,7[5,2],1 ＞ 成功数1
rand:5/6,4/6,2/6,3/6,4/6,2/6,3/6,5/6,2/6,1/6
============================
input:
6U6[4]>=10
output:
DiceBot : (6U6[4]>=10) ＞ 13[5,5,3],3,2,15[6,6,3],5[4,1],3 ＞ 成功数2
rand:5/6,5/6,3/6,3/6,2/6,6/6,6/6,3/6,4/6,1/6,3/6
".
Definition file_choice : string := "input:
choice[abc,def]
output:
DiceBot : (CHOICE[abc,def]) ＞ abc
rand:1/2
============================
input:
choice[A,B,C,D]どれにしよう
output:
DiceBot : (CHOICE[A,B,C,D]) ＞ A
rand:1/4
============================
input:
choice[A,B,C,D]どれにしよう
output:
DiceBot : (CHOICE[A,B,C,D]) ＞ B
rand:2/4
============================
input:
choice[A,B,C,D]どれにしよう
output:
DiceBot : (CHOICE[A,B,C,D]) ＞ C
rand:3/4
============================
input:
choice[A,B,C,D]どれにしよう
output:
DiceBot : (CHOICE[A,B,C,D]) ＞ D
rand:4/4
============================
input:
CHOICE[Call of Cthulhu, Sword World, Double Cross]
output:
DiceBot : (CHOICE[Call of Cthulhu,Sword World,Double Cross]) ＞ Call of Cthulhu
rand:1/3
============================
input:
CHOICE[Call of Cthulhu, Sword World, Double Cross]
output:
DiceBot : (CHOICE[Call of Cthulhu,Sword World,Double Cross]) ＞ Sword World
rand:2/3
============================
input:
CHOICE[Call of Cthulhu, Sword World, Double Cross]
output:
DiceBot : (CHOICE[Call of Cthulhu,Sword World,Double Cross]) ＞ Double Cross
rand:3/3
============================
input:
CHOICE[日本語, でも,　だいじょうぶ]
output:
DiceBot : (CHOICE[日本語,でも,だいじょうぶ]) ＞ 日本語
rand:1/3
============================
input:
CHOICE[日本語, でも,　だいじょうぶ]
output:
DiceBot : (CHOICE[日本語,でも,だいじょうぶ]) ＞ でも
rand:2/3
============================
input:
CHOICE[日本語, でも,　だいじょうぶ]
output:
DiceBot : (CHOICE[日本語,でも,だいじょうぶ]) ＞ だいじょうぶ
rand:3/3
============================
input:
choice[1+2, (3*4), 5d6]
output:
DiceBot : (CHOICE[1+2,(3*4),5d6]) ＞ 1+2
rand:1/3
============================
input:
choice[1+2, (3*4), 5d6]
output:
DiceBot : (CHOICE[1+2,(3*4),5d6]) ＞ (3*4)
rand:2/3
============================
input:
choice[1+2, (3*4), 5d6]
output:
DiceBot : (CHOICE[1+2,(3*4),5d6]) ＞ 5d6
rand:3/3
".
Definition file_secret_roll : string := "input:
S2d6
output:
DiceBot : (2D6) ＞ 5[4,1] ＞ 5###secret dice###
rand:4/6,1/6
============================
input:
s2d6
output:
DiceBot : (2D6) ＞ 5[4,1] ＞ 5###secret dice###
rand:4/6,1/6
============================
input:
S1U6[3]
output:
DiceBot : (1U6[3]) ＞ 5[3,2] ＞ 5/5 (最大/合計)###secret dice###
rand:3/6,2/6
============================
input:
S3B6>=4
output:
DiceBot : (3B6>=4) ＞ 5,2,4 ＞ 成功数2###secret dice###
rand:5/6,2/6,4/6
============================
input:
Schoice[abc2,def3]
output:
DiceBot : (CHOICE[abc2,def3]) ＞ def3###secret dice###
rand:2/2
============================
input:
S2R6[3]
output:
DiceBot : (2R6[3]) ＞ 3,2 + 1###secret dice###
rand:3/6,2/6,1/6
".

(** basic_test.go:11-23 *)
Definition base_names : list string := ["calc.txt"; "d_roll_expr.txt"; "d_roll_comp.txt"; "b_roll_list.txt"; "b_roll_comp.txt"; "r_roll_list.txt"; "r_roll_comp.txt"; "u_roll_expr.txt"; "u_roll_comp.txt"; "choice.txt"; "secret_roll.txt"].
Definition contents : list (outcome string) := [Ok file_calc; Ok file_d_roll_expr; Ok file_d_roll_comp; Ok file_b_roll_list; Ok file_b_roll_comp; Ok file_r_roll_list; Ok file_r_roll_comp; Ok file_u_roll_expr; Ok file_u_roll_comp; Ok file_choice; Ok file_secret_roll].
(** What is on the disk: the contents under the paths the files have *)
Definition disk : list (string * outcome string) := combine (map (fun b => "testdata/" ++ b) base_names) contents.
Definition read_file (name : string) : string * outcome string :=
  (name, match find (fun f => String.eqb (fst f) name) disk with Some f => snd f | None => Err ("open " ++ name ++ ": no such file or directory") end).
(** basic_test.go:10-27 *)
Definition test_dice_bot : report := run_tests "DiceBot" (map read_file (join_with_test_data base_names)).
Definition passes (r : report) : bool := match r with Ran l => forallb (fun s => match snd s with [] => true | _ => false end) l | _ => false end.
Definition subtests (r : report) : list string := match r with Ran l => map fst l | _ => [] end.
(** The test passes in the model, with all its cases: *)
Example test_dice_bot_passes : passes test_dice_bot = true /\ length (subtests test_dice_bot) = 271%nat /\
  firstn 2 (subtests test_dice_bot) = ["DiceBot-1:""C(1+2)""[]"; "DiceBot-2:""C(2-1)""[]"].
Proof. vm_compute. repeat split. Qed.
(** It notices a wrong expectation and dice left over, and a file that is missing: *)
Example test_dice_bot_notices :
  passes (run_tests "DiceBot" [("x", Ok ("input:" ++ String "010" ("2D6" ++ String "010" ("output:" ++ String "010" ("DiceBot : (2D6) ＞ 3[1,2] ＞ 4" ++ String "010" "rand:1/6,2/6")))))]) = false /\
  passes (run_tests "DiceBot" (map read_file (join_with_test_data ["calc.txt"; "fate.txt"]))) = false /\
  run_tests "DiceBot" (map read_file (join_with_test_data ["calc.txt"; "fate.txt"])) = Unloaded "テストデータファイルの読み込み失敗: testdata/fate.txt: open testdata/fate.txt: no such file or directory".
Proof. vm_compute. repeat split. Qed.
