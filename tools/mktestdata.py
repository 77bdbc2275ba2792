#!/usr/bin/env python3
"""theories/TestData.v: the test data files of the repository as strings, and TestDiceBot (basic_test.go:10-27) run on them in the model."""
import os
D='/repo/pkg/dicebot/gamesystem/basic/testdata/'
names="calc d_roll_expr d_roll_comp b_roll_list b_roll_comp r_roll_list r_roll_comp u_roll_expr u_roll_comp choice secret_roll".split()
o=['(** The test data of the repository, pkg/dicebot/gamesystem/basic/testdata, as the files are (generated by tools/mktestdata.py), and','    the test of the basic dice bot, pkg/dicebot/gamesystem/basic/basic_test.go:10-27 [TestDiceBot], run by the model of the test runner. *)','From Verif Require Import Runner.','Open Scope string_scope.','']
for n in names:
    t=open(D+n+'.txt',encoding='utf8').read()
    o.append(f'Definition file_{n} : string := "{t.replace(chr(34),chr(34)*2)}".')
o.append('')
o.append('(** basic_test.go:11-23 *)')
o.append('Definition base_names : list string := ['+'; '.join(f'"{n}.txt"' for n in names)+'].')
o.append('Definition contents : list (outcome string) := ['+'; '.join(f'Ok file_{n}' for n in names)+'].')
o.append('''(** What is on the disk: the contents under the paths the files have *)
Definition disk : list (string * outcome string) := combine (map (fun b => "testdata/" ++ b) base_names) contents.
Definition read_file (name : string) : string * outcome string :=
  (name, match find (fun f => String.eqb (fst f) name) disk with Some f => snd f | None => Err ("open " ++ name ++ ": no such file or directory") end).
(** basic_test.go:10-27 *)
Definition test_dice_bot : report := run_tests "DiceBot" (map read_file (join_with_test_data base_names)).
Definition passes (r : report) : bool := match r with Ran l => forallb (fun s => match snd s with [] => true | _ => false end) l | _ => false end.
Definition subtests (r : report) : list string := match r with Ran l => map fst l | _ => [] end.
(** The test passes in the model, with all its cases: *)
Example test_dice_bot_passes : passes test_dice_bot = true /\\ length (subtests test_dice_bot) = COUNT%nat /\\
  firstn 2 (subtests test_dice_bot) = [FIRST].
Proof. vm_compute. repeat split. Qed.
(** It notices a wrong expectation and dice left over, and a file that is missing: *)
Example test_dice_bot_notices :
  passes (run_tests "DiceBot" [("x", Ok ("input:" ++ String "010" ("2D6" ++ String "010" ("output:" ++ String "010" ("DiceBot : (2D6) ＞ 3[1,2] ＞ 4" ++ String "010" "rand:1/6,2/6")))))]) = false /\\
  passes (run_tests "DiceBot" (map read_file (join_with_test_data ["calc.txt"; "fate.txt"]))) = false /\\
  run_tests "DiceBot" (map read_file (join_with_test_data ["calc.txt"; "fate.txt"])) = Unloaded "テストデータファイルの読み込み失敗: testdata/fate.txt: open testdata/fate.txt: no such file or directory".
Proof. vm_compute. repeat split. Qed.
''')
s="\n".join(o)
import sys
s=s.replace("COUNT",sys.argv[1] if len(sys.argv)>1 else "0").replace("FIRST",sys.argv[2] if len(sys.argv)>2 else "")
open('/verif/rocq/theories/TestData.v','w',encoding='utf8').write(s)
