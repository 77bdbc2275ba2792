(** pkg/core/dice/feeder/mt19937.go with the two libraries it uses: the generator github.com/seehuhn/mt19937 (v0.0.0-20180715112136, mt19937.go) and math/rand (Go 1.14, rand.go).
    The sources of the libraries are not in /repo; they are modelled from their published text, and the project's own test data (mt19937_test.go:52-57) is
    reproduced below. *)
From Verif Require Export BCDice.
Open Scope list_scope.
Open Scope Z_scope.

(** ** The generator: seehuhn/mt19937.  uint64 values are integers in [0, 2^64). *)
Definition two64 : Z := 18446744073709551616.
Definition uint64 (z : Z) : Z := z mod two64.
(** [type MT19937 struct { state []uint64; index int }]; n = 312 words *)
Record mt := MT { mt_state : list Z; mt_index : nat }.
(** [Seed]: x[i] = 6364136223846793005*(x[i-1]^(x[i-1]>>62)) + i *)
Fixpoint seed_words (left : nat) (i prev : Z) : list Z :=
  match left with
  | O => []
  | S left' => let x := uint64 (6364136223846793005 * Z.lxor prev (Z.shiftr prev 62) + i) in x :: seed_words left' (i + 1) x
  end.
Definition mt_seed (seed : Z) : mt := MT (uint64 seed :: seed_words 311 1 (uint64 seed)) 312.
(** x[i] = v *)
Fixpoint set_word (x : list Z) (i : nat) (v : Z) : list Z :=
  match x, i with
  | [], _ => []
  | _ :: x', O => v :: x'
  | w :: x', S i' => w :: set_word x' i' v
  end.
Definition word_at (x : list Z) (i : nat) : Z := nth i x 0.
(** y := (x[i] & hiMask) | (x[j] & loMask); x[i] = x[k] ^ (y >> 1) ^ ((y & 1) * matrixA) *)
Definition hi_mask : Z := 18446744071562067968.  (* 0xffffffff80000000 *)
Definition lo_mask : Z := 2147483647.            (* 0x000000007fffffff *)
Definition matrix_a : Z := 13043109905998158313. (* 0xB5026F5AA96619E9 *)
Definition twist_at (x : list Z) (i j k : nat) : list Z :=
  let y := Z.lor (Z.land (word_at x i) hi_mask) (Z.land (word_at x j) lo_mask) in
  set_word x i (Z.lxor (Z.lxor (word_at x k) (Z.shiftr y 1)) (Z.land y 1 * matrix_a)).
(** The three parts of the loop in [Uint64] that computes the next 312 words in place *)
Definition mt_twist (x : list Z) : list Z :=
  let x1 := fold_left (fun x i => twist_at x i (i + 1) (i + 156)) (seq 0 156) x in
  let x2 := fold_left (fun x i => twist_at x i (i + 1) (i - 156)) (seq 156 155) x1 in
  twist_at x2 311 0 155.
(** The tempering at the end of [Uint64] *)
Definition temper (y : Z) : Z :=
  let y := Z.lxor y (Z.land (Z.shiftr y 29) 6148914691236517205) in            (* 0x5555555555555555 *)
  let y := Z.lxor y (Z.land (uint64 (Z.shiftl y 17)) 8202884508482404352) in   (* 0x71D67FFFEDA60000 *)
  let y := Z.lxor y (Z.land (uint64 (Z.shiftl y 37)) 18444473444759240704) in  (* 0xFFF7EEE000000000 *)
  Z.lxor y (Z.shiftr y 43).
(** [Uint64] (of a seeded generator: index <> notSeeded) *)
Definition mt_uint64 (g : mt) : Z * mt :=
  let g := if (312 <=? mt_index g)%nat then MT (mt_twist (mt_state g)) 0 else g in
  (temper (word_at (mt_state g) (mt_index g)), MT (mt_state g) (S (mt_index g))).
(** [Int63]: x & 0x7fffffffffffffff *)
Definition mt_int63 (g : mt) : Z * mt := let '(x, g') := mt_uint64 g in (Z.land x 9223372036854775807, g').

(** ** math/rand, for a source with states [S] whose Int63 is [int63].  The loops that reject numbers have no bound in Go; here [tries] bounds them, and [None] is
    a loop that has not ended by then. *)
Section Rand.
  Context {S : Type}.
  Variable int63 : S -> Z * S.
  (** rand.go [Int31]: int32(r.Int63() >> 32) *)
  Definition rand_int31 (s : S) : Z * S := let '(v, s') := int63 s in (Z.shiftr v 32, s').
  (** v := draw(); for v > max { v = draw() } *)
  Fixpoint reject (tries : nat) (draw : S -> Z * S) (max : Z) (s : S) : option (Z * S) :=
    match tries with
    | O => None
    | Datatypes.S tries' => let '(v, s') := draw s in if max <? v then reject tries' draw max s' else Some (v, s')
    end.
  (** rand.go [Int31n], [Int63n] (bits = 31, 63): a power of two takes the low bits; otherwise numbers beyond the largest multiple of n are rejected *)
  Definition rand_n (tries : nat) (bits : Z) (draw : S -> Z * S) (n : Z) (s : S) : option (Z * S) :=
    if Z.land n (n - 1) =? 0 then let '(v, s') := draw s in Some (Z.land v (n - 1), s')
    else match reject tries draw (2 ^ bits - 1 - 2 ^ bits mod n) s with
         | Some (v, s') => Some (Z.rem v n, s')
         | None => None
         end.
  (** rand.go [Intn], for n > 0 *)
  Definition rand_intn (tries : nat) (n : Z) (s : S) : option (Z * S) :=
    if n <=? 2147483647 then rand_n tries 31 rand_int31 n s else rand_n tries 63 int63 n s.

  (** mt19937.go:51-57 [Next].  ([sides] is an int; the second case does not occur.) *)
  Definition rand_next (tries : nat) (s : S) (sides : Z) : option (outcome die * S) :=
    if sides <=? 0 then Some (Panic "invalid argument to Intn", s)
    else if max_int <? sides then None
    else match rand_intn tries sides s with
         | Some (v, s') => Some (Ok (Die (wrap64 (1 + v)) sides), s')
         | None => None
         end.

  (** ** The program with this feeder: roller.go:37-77, evaluator.go:93-102, bcdice.go:63-119, as in Dice.v, Comp.v and BCDice.v, where the feeder is an oracle *)
  Fixpoint rand_roll_loop (tries n : nat) (num sides : Z) (acc : list die) (s : S) : option (outcome (list die) * S) :=
    match n with
    | O => Some (Ok acc, s)
    | Datatypes.S n' =>
        match rand_next tries s sides with
        | Some (Ok d, s') =>
            if die_sides d =? sides then rand_roll_loop tries n' num sides (acc ++ [d]) s'
            else Some (Err ("RollDice(num: " ++ itoa num ++ ", sides: " ++ itoa sides ++ ") -> "
                       ++ itoa (die_value d) ++ "/" ++ itoa (die_sides d)
                       ++ ": ダイスの面数が指定と一致しません")%string, s')
        | Some (Err e, s') => Some (Err e, s')
        | Some (Panic p, s') => Some (Panic p, s')
        | None => None
        end
    end.
  Definition rand_roll_dice (tries : nat) (num sides : Z) (s : S) : option (outcome (list die) * S) :=
    if sides <? 1 then
      Some (Err ("RollDice(num: " ++ itoa num ++ ", sides: " ++ itoa sides ++ "): ダイスの面数が少なすぎます")%string, s)
    else if num <? 1 then
      Some (Err ("RollDice(num: " ++ itoa num ++ ", sides: " ++ itoa sides ++ "): 振るダイス数が少なすぎます")%string, s)
    else if max_alloc_16 <? num then Some (Panic "makeslice: cap out of range", s)
    else rand_roll_loop tries (Z.to_nat num) num sides [] s.
  Fixpoint rand_run {A} (tries : nat) (c : comp A) (s : S) (log : list die) : option (outcome A * S) :=
    match c with
    | CRet a => Some (Ok a, s)
    | CErr e => Some (Err e, s)
    | CPanic p => Some (Panic p, s)
    | CRoll num sides k =>
        match rand_roll_dice tries num sides s with
        | Some (Ok ds, s') => rand_run tries (k ds) s' (log ++ ds)
        | Some (Err e, s') => Some (Err e, s')
        | Some (Panic p, s') => Some (Panic p, s')
        | None => None
        end
    | CLog k => rand_run tries (k log) s log
    end.
  Definition rand_basic_command (tries : nat) (bot : dicebot) (c : string) (s : S) : option (outcome result * S) :=
    match parse_text "input" c with
    | Ok n => rand_run tries (execute default_max_rerolls (db_game_id bot) n) s []
    | Err e => Some (Err e, s)
    | Panic p => Some (Panic p, s)
    end.
  Definition rand_execute (tries : nat) (bot : dicebot) (input : string) (s : S) : option (outcome result * S) :=
    let '(command, secret) := check_secret input in
    let first := first_part command in
    match rand_run tries (dicebot_execute bot first) s [] with
    | None => None
    | Some (Ok r, s1) => Some (Ok (set_secret r secret), s1)
    | Some (Panic p, s1) => Some (Panic p, s1)
    | Some (Err _, s1) =>
        match rand_basic_command tries bot command s1 with
        | None => None
        | Some (Ok r, s2) => Some (Ok (set_secret r secret), s2)
        | Some (Panic p, s2) => Some (Panic p, s2)
        | Some (Err _, s2) =>
            match rand_basic_command tries bot first s2 with
            | None => None
            | Some (Ok r, s3) => Some (Ok (set_secret r secret), s3)
            | Some (Panic p, s3) => Some (Panic p, s3)
            | Some (Err e, s3) => Some (Err e, s3)
            end
        end
    end.
  (** Several inputs, one after the other (bcdice.go:63: the feeder is kept) *)
  Fixpoint rand_session (tries : nat) (bot : dicebot) (inputs : list string) (s : S) : option (list (outcome result) * S) :=
    match inputs with
    | [] => Some ([], s)
    | input :: inputs' =>
        match rand_execute tries bot input s with
        | None => None
        | Some (o, s1) => match rand_session tries bot inputs' s1 with None => None | Some (os, s2) => Some (o :: os, s2) end
        end
    end.
End Rand.

(** mt19937.go:12-29 [NewMT19937]; the seed is kept for [Seed] (mt19937.go:44-46) *)
Record mt_feeder := MTFeeder { mf_seed : Z; mf_rng : mt }.
Definition new_mt19937 (seed : Z) : mt_feeder := MTFeeder seed (mt_seed seed).
Definition mf_next (tries : nat) (f : mt_feeder) (sides : Z) : option (outcome die * mt_feeder) :=
  match rand_next mt_int63 tries (mf_rng f) sides with Some (o, g) => Some (o, MTFeeder (mf_seed f) g) | None => None end.
Definition mf_can_specify_die (f : mt_feeder) : bool := false.

(** mt19937_test.go:52-57, 63-78 (a test, not a proof) *)
Fixpoint mf_dice (f : mt_feeder) (sides : list Z) : option (list (outcome die)) :=
  match sides with
  | [] => Some []
  | s :: sides' => match mf_next 8 f s with Some (o, f') => match mf_dice f' sides' with Some l => Some (o :: l) | None => None end | None => None end
  end.
Example mt19937_test_1 : mf_dice (new_mt19937 1) [6; 6; 6; 6; 6; 6] = Some (map Ok [Die 4 6; Die 1 6; Die 2 6; Die 6 6; Die 5 6; Die 3 6]).
Proof. vm_compute. reflexivity. Qed.
Example mt19937_test_2 : mf_dice (new_mt19937 1) [2; 4; 6; 10; 20] = Some (map Ok [Die 2 2; Die 1 4; Die 2 6; Die 4 10; Die 3 20]).
Proof. vm_compute. reflexivity. Qed.
(** The reference implementation of MT19937-64: first number for the seed 5489 *)
Example mt_reference : fst (mt_uint64 (mt_seed 5489)) = 14514284786278117030.
Proof. vm_compute. reflexivity. Qed.
