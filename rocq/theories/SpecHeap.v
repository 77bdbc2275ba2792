(** Specification for C67: which tree is at an address, and what "nothing else changes" means. *)
From Verif Require Import HeapEval.
Open Scope list_scope.
Open Scope nat_scope.

(** [rep h t a F]: reading from address [a] of the memory [h] gives the tree [t]; the nodes read are at the addresses [F] (with
    repetitions, if a node is reached twice).  [reps h ts l F]: the same for the rolls [ts] of a list. *)
Inductive rep (h : heap) : node -> nat -> list nat -> Prop :=
| rep_nil a : nth_error h a = Some HNil -> rep h NNil a [a]
| rep_int a v : nth_error h a = Some (HInt v) -> rep h (NInt v) a [a]
| rep_string a s : nth_error h a = Some (HString s) -> rep h (NString s) a [a]
| rep_sum a ds : nth_error h a = Some (HSumRoll ds) -> rep h (NSumRoll ds) a [a]
| rep_neg a r t F : nth_error h a = Some (HNeg r) -> rep h t r F -> rep h (NNeg t) a (a :: F)
| rep_infix a op l r tl tr Fl Fr : nth_error h a = Some (HInfix op l r) -> rep h tl l Fl -> rep h tr r Fr -> rep h (NInfix op tl tr) a (a :: Fl ++ Fr)
| rep_blist a rolls ts F : nth_error h a = Some (HBRollList rolls) -> reps h ts rolls F -> rep h (NBRollList ts) a (a :: F)
| rep_rlist a rolls th ts tt F Ft : nth_error h a = Some (HRRollList rolls th) -> reps h ts rolls F -> rep h tt th Ft -> rep h (NRRollList ts tt) a (a :: Ft ++ F)
| rep_uexpr a lst ts tt F : nth_error h a = Some (HURollExpr lst None) -> rep h (NRRollList ts tt) lst F -> rep h (NURollExpr ts tt None) a (a :: F)
| rep_ubonus a lst b ts tt op l r F Fb : nth_error h a = Some (HURollExpr lst (Some b)) -> rep h (NRRollList ts tt) lst F -> rep h (NInfix op l r) b Fb ->
    rep h (NURollExpr ts tt (Some (Bonus op l r))) a (a :: F ++ Fb)
| rep_choice a items : nth_error h a = Some (HChoice items) -> rep h (NChoice items) a [a]
| rep_command a c e t F : nth_error h a = Some (HCommand c e) -> rep h t e F -> rep h (NCommand c t) a (a :: F)
with reps (h : heap) : list vroll -> list nat -> list nat -> Prop :=
| reps_nil : reps h [] [] []
| reps_cons k l r ts a rest F Fs : rep h (NInfix (OpVar k) l r) a F -> reps h ts rest Fs -> reps h (VRoll k l r :: ts) (a :: rest) (F ++ Fs).
(** The tree [t] is at [a] and no node of it is shared. *)
Definition tree_at (h : heap) (a : nat) (t : node) (F : list nat) : Prop := rep h t a F /\ NoDup F.
(** The nodes of [h] that are not in [F] are the same in [h']. *)
Definition unchanged_outside (F : list nat) (h h' : heap) : Prop := forall x, x < length h -> ~ In x F -> nth_error h' x = nth_error h x.
Definition disjoint (F G : list nat) : Prop := forall x, In x F -> ~ In x G.
