(** What roll commands do, in terms of the dice they take. *)
From Verif Require Import GoBase Dice Ast Eval Command SpecSyntax.
Open Scope list_scope.
Open Scope Z_scope.

(** With the dice [ds] in front of the queue, the command succeeds with result [r] and takes exactly [ds]. *)
Definition gives (gid : string) (n : node) (ds : list die) (r : result) : Prop :=
  forall q, run_command gid n (FQueue (ds ++ q)) = (Ok r, FQueue q).

(** The value of an integer expression is that of the calculation C(e) (see SpecArith and C09-C14 for what that is). *)
Definition has_value (e : iexpr) (v : Z) : Prop := eval default_max_rerolls (itree e) = CRet (OInt v).

(** [rolled num sides ds]: ds are num dice with that many sides.  (The limit is that of memory allocation.) *)
Definition rolled (num sides : Z) (ds : list die) : Prop :=
  1 <= num <= max_alloc_16 /\ 1 <= sides /\ Z.of_nat (length ds) = num /\ Forall (fun d => die_sides d = sides) ds.

(** Replace the leaves of an expression from left to right; each replacement takes some dice. *)
Inductive visit {L M} (leaf : L -> list die -> M -> Prop) : ae L -> list die -> ae M -> Prop :=
| visit_leaf l ds m : leaf l ds m -> visit leaf (Leaf l) ds (Leaf m)
| visit_neg e ds e' : visit leaf e ds e' -> visit leaf (Neg e) ds (Neg e')
| visit_bin op a b ds1 ds2 a' b' :
    visit leaf a ds1 a' -> visit leaf b ds2 b' -> visit leaf (Bin op a b) (ds1 ++ ds2) (Bin op a' b').

(** [lo...hi]: one die with hi-lo+1 sides, showing d, gives lo-1+d (an int64; no wrap if the die is legal). *)
Definition random_number (lo hi : iexpr) (ds : list die) (v : Z) : Prop :=
  exists a b d, has_value lo a /\ has_value hi b /\ a < b /\ b - a + 1 <= max_int /\
    ds = [d] /\ die_sides d = b - a + 1 /\ v = wrap64 (a - 1 + die_value d).

(** An operand leaf becomes a number. *)
Definition operand_leaf (l : rleaf) (ds : list die) (v : Z) : Prop :=
  match l with
  | RInt w => ds = [] /\ v = w
  | RRand lo hi => random_number lo hi ds v
  end.
(** The value of a roll operand, taking dice ds for its random numbers. *)
Definition operand_value (e : rexpr) (ds : list die) (v : Z) : Prop :=
  exists ie, visit operand_leaf e ds ie /\ has_value ie v.

(** First step of a D command: the operands of each roll become numbers.  (No case for a random number standing outside
    a roll operand: see C19.) *)
Inductive mleaf := MInt (v : Z) | MDice (num sides : Z).
Definition settle_operands (l : dleaf) (ds : list die) (m : mleaf) : Prop :=
  match l, m with
  | DInt v, MInt w => ds = [] /\ w = v
  | DDice n s, MDice x y => exists ds1 ds2, ds = ds1 ++ ds2 /\ operand_value n ds1 x /\ operand_value s ds2 y
  | _, _ => False
  end.
(** Second step: the dice of each roll are rolled. *)
Inductive sleaf := SInt (v : Z) | SRoll (ds : list die).
Definition roll_leaf (m : mleaf) (ds : list die) (s : sleaf) : Prop :=
  match m, s with
  | MInt v, SInt w => ds = [] /\ w = v
  | MDice x y, SRoll rolls => rolls = ds /\ rolled x y ds
  | _, _ => False
  end.
(** Third step: sums. *)
Definition sum_leaf (s : sleaf) : Z :=
  match s with SInt v => v | SRoll ds => wrap64 (fold_right Z.add 0 (map die_value ds)) end.
Fixpoint ae_map {L M} (f : L -> M) (e : ae L) : ae M :=
  match e with Leaf l => Leaf (f l) | Neg e => Neg (ae_map f e) | Bin op a b => Bin op (ae_map f a) (ae_map f b) end.

(** The trees shown after the first and the second step *)
Definition mleaf_tree (m : mleaf) : node :=
  match m with MInt v => NInt v | MDice x y => NInfix (OpVar KD) (NInt x) (NInt y) end.
Definition sleaf_tree (s : sleaf) : node := match s with SInt v => NInt v | SRoll ds => NSumRoll ds end.

(** [d_value e ops rolls mid end v]: e, with operand dice ops and roll dice rolls, has value v. *)
Definition d_value (e : dexpr) (ops rolls : list die) (mid : ae mleaf) (fin : ae sleaf) (v : Z) : Prop :=
  visit settle_operands e ops mid /\ visit roll_leaf mid rolls fin /\ has_value (ae_map sum_leaf fin) v.

(** Left sides of a D comparison that can be executed: anything but a single roll with computed operands (C17) or a
    single random number (C19). *)
Definition comparable (e : dexpr) : Prop :=
  match e with
  | Leaf (DDice (Leaf (RInt _)) (Leaf (RInt _))) => True
  | Leaf _ => False
  | _ => True
  end.
