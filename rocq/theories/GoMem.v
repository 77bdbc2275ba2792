(** Slices of dice in memory: the queue of pkg/core/dice/feeder/queue.go and the log of pkg/core/evaluator/environment.go
    at the level of backing arrays, together with a caller that keeps slices of its own.  (The other files of the
    model take both as plain lists; the theorems of Prop_memory.v justify this.) *)
From Verif Require Export Dice.
Open Scope list_scope.
Open Scope nat_scope.

(** Backing arrays, identified by their index; a slice is a window into one (Go specification, slice types). *)
Definition memory := list (list die).
Record slice := Slice { sl_arr : nat; sl_off : nat; sl_len : nat; sl_cap : nat }.
Definition array (m : memory) (a : nat) : list die := nth a m [].
Fixpoint put {A} (l : list A) (i : nat) (x : A) : list A :=
  match l, i with
  | [], _ => []
  | _ :: l', O => x :: l'
  | y :: l', S i' => y :: put l' i' x
  end.
(** What the slice shows *)
Definition contents (m : memory) (s : slice) : list die := firstn (sl_len s) (skipn (sl_off s) (array m (sl_arr s))).

(** dice.Die{} *)
Definition zero_die : die := Die 0 0.
(** A new backing array; its slice *)
Definition fresh (m : memory) (l : list die) : memory * slice := (m ++ [l], Slice (length m) 0 (length l) (length l)).
(** make([]dice.Die, n) *)
Definition go_make (m : memory) (n : nat) : memory * slice := fresh m (repeat zero_die n).
(** s[i] = d; out of range panics *)
Definition go_store (m : memory) (s : slice) (i : nat) (d : die) : option memory :=
  if i <? sl_len s then Some (put m (sl_arr s) (put (array m (sl_arr s)) (sl_off s + i) d)) else None.
(** s[i]; out of range panics *)
Definition go_load (m : memory) (s : slice) (i : nat) : option die :=
  if i <? sl_len s then nth_error (array m (sl_arr s)) (sl_off s + i) else None.
(** copy(dst, src) *)
Definition go_copy (m : memory) (dst src : slice) : memory :=
  let vals := firstn (sl_len dst) (contents m src) in
  let a := array m (sl_arr dst) in
  put m (sl_arr dst) (firstn (sl_off dst) a ++ vals ++ skipn (sl_off dst + length vals) a).
(** append(s, d): in place if there is room, else in a new array with room for [grow] more (the growth policy is left open) *)
Definition go_append (m : memory) (s : slice) (d : die) (grow : nat) : memory * slice :=
  if sl_len s <? sl_cap s
  then (put m (sl_arr s) (put (array m (sl_arr s)) (sl_off s + sl_len s) d), Slice (sl_arr s) (sl_off s) (S (sl_len s)) (sl_cap s))
  else (m ++ [contents m s ++ d :: repeat zero_die grow], Slice (length m) 0 (S (sl_len s)) (S (sl_len s) + grow)).
(** s[a:b]; panics unless a <= b <= cap(s) *)
Definition go_slice (s : slice) (a b : nat) : option slice :=
  if (a <=? b) && (b <=? sl_cap s) then Some (Slice (sl_arr s) (sl_off s + a) (b - a) (sl_cap s - a)) else None.

(** The field [queue] of a Queue, or the field [rolledDice] of an Environment, is a slice. *)
(** queue.go:60-62, environment.go:29-31 [Push], [PushRolledDie] *)
Definition m_push (m : memory) (q : slice) (d : die) (grow : nat) : memory * slice := go_append m q d grow.
(** queue.go:65-69, environment.go:34-38 [Append], [AppendRolledDice]: element [i] is read when its turn comes; [left] elements to go *)
Fixpoint m_append_loop (m : memory) (q src : slice) (i left : nat) (grow : nat -> nat) : memory * slice :=
  match left with
  | O => (m, q)
  | S left' =>
      match go_load m src i with
      | Some d => let '(m', q') := m_push m q d (grow i) in m_append_loop m' q' src (S i) left' grow
      | None => (m, q)                              (* not reachable: range stays within the length *)
      end
  end.
Definition m_append (m : memory) (q src : slice) (grow : nat -> nat) : memory * slice := m_append_loop m q src 0 (sl_len src) grow.
(** queue.go:72-74, environment.go:41-43 [Clear], [ClearRolledDice]; the start of NewQueue (:20) and NewEnvironment (:14-16) *)
Definition m_clear (m : memory) : memory * slice := fresh m [].
(** queue.go:19-24 [NewQueue] *)
Definition m_new (m : memory) (src : slice) (grow : nat -> nat) : memory * slice :=
  let '(m', q) := m_clear m in m_append m' q src grow.
(** queue.go:38-43, environment.go:20-26 [Dice], [RolledDice] *)
Definition m_dice (m : memory) (q : slice) : memory * slice :=
  let '(m', c) := go_make m (sl_len q) in (go_copy m' c q, c).
(** queue.go:77-80 [Set] *)
Definition m_set (m : memory) (src : slice) : memory * slice :=
  let '(m', q) := go_make m (sl_len src) in (go_copy m' q src, q).
(** queue.go:47-57 [Next]; [None] is the error *)
Definition m_next (m : memory) (q : slice) : option (die * slice) :=
  if sl_len q =? 0 then None
  else match go_load m q 0, go_slice q 1 (sl_len q) with
       | Some d, Some q' => Some (d, q')
       | _, _ => None                               (* not reachable *)
       end.

(** The memory, the fields of the objects (queues and environments) and the slices the caller holds *)
Record world := World { w_mem : memory; w_objs : list slice; w_held : list slice }.
(** What can happen.  The caller sees the objects only through their methods (the fields are not exported).  [o] numbers
    objects, [k] held slices; the growth is whatever the runtime chooses. *)
Inductive action :=
| HMake (l : list die)                              (* the caller: []dice.Die{...} *)
| HStore (k i : nat) (d : die)                      (* s[i] = d *)
| HSlice (k a b : nat)                              (* s[a:b] *)
| HAppend (k : nat) (d : die) (grow : nat)          (* append(s, d) *)
| HCopy (k k' : nat)                                (* copy(s, s') *)
| New (k : nat) (grow : nat -> nat)                 (* NewQueue(s) *)
| NewEmpty                                          (* NewEnvironment() *)
| Push (o : nat) (d : die) (grow : nat)
| Append (o k : nat) (grow : nat -> nat)
| Set_ (o k : nat)
| Clear (o : nat)
| Next (o : nat)
| Dice (o : nat)
| Remaining (o : nat).
(** What a method answers *)
Inductive answer := Nothing | ADie (d : die) | ANoDie | ANumber (n : nat).

Definition step (w : world) (a : action) : world * answer :=
  let m := w_mem w in
  let with_held (k : nat) (f : slice -> world * answer) := match nth_error (w_held w) k with Some s => f s | None => (w, Nothing) end in
  let with_obj (o : nat) (f : slice -> world * answer) := match nth_error (w_objs w) o with Some s => f s | None => (w, Nothing) end in
  let hold (ms : memory * slice) := World (fst ms) (w_objs w) (w_held w ++ [snd ms]) in
  let create (ms : memory * slice) := World (fst ms) (w_objs w ++ [snd ms]) (w_held w) in
  let assign (o : nat) (ms : memory * slice) := World (fst ms) (put (w_objs w) o (snd ms)) (w_held w) in
  match a with
  | HMake l => (hold (fresh m l), Nothing)
  | HStore k i d => with_held k (fun s => match go_store m s i d with Some m' => (World m' (w_objs w) (w_held w), Nothing) | None => (w, Nothing) end)
  | HSlice k a b => with_held k (fun s => match go_slice s a b with Some s' => (hold (m, s'), Nothing) | None => (w, Nothing) end)
  | HAppend k d g => with_held k (fun s => (hold (go_append m s d g), Nothing))
  | HCopy k k' => with_held k (fun s => with_held k' (fun s' => (World (go_copy m s s') (w_objs w) (w_held w), Nothing)))
  | New k g => with_held k (fun s => (create (m_new m s g), Nothing))
  | NewEmpty => (create (m_clear m), Nothing)
  | Push o d g => with_obj o (fun q => (assign o (m_push m q d g), Nothing))
  | Append o k g => with_obj o (fun q => with_held k (fun s => (assign o (m_append m q s g), Nothing)))
  | Set_ o k => with_obj o (fun _ => with_held k (fun s => (assign o (m_set m s), Nothing)))
  | Clear o => with_obj o (fun _ => (assign o (m_clear m), Nothing))
  | Next o => with_obj o (fun q => match m_next m q with Some (d, q') => (assign o (m, q'), ADie d) | None => (w, ANoDie) end)
  | Dice o => with_obj o (fun q => (hold (m_dice m q), Nothing))
  | Remaining o => with_obj o (fun q => (w, ANumber (sl_len q)))
  end.
Definition empty_world : world := World [] [] [].
Definition run_actions (l : list action) : world := fold_left (fun w a => fst (step w a)) l empty_world.
