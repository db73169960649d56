(** * Spec_AsmTrace: what an observer of the instruction stream and of the addresses sees of a run

    An event is an instruction with the words of memory objects it accesses (object, byte offset).
    Accesses to the stack frame, to the arguments and to constants are at offsets that stand in the
    instruction.  Not observed: values, and instruction timing (the multiplication, shift and vector
    instructions used here take a time that does not depend on their operands; stated, not modelled). *)
From Coq Require Import ZArith List.
From Verif Require Import AsmX86.
Import ListNotations.
Open Scope Z_scope.

Definition at_ptr (st : state) (b : nat) (offs : list Z) : list (nat * Z) :=
  match rd st b with Ptr r o => map (fun off => (r, o + off)) offs | _ => [] end.
Definition accesses (i : instr) (st : state) : list (nat * Z) :=
  match i with
  | LD b off _ | STO _ b off => at_ptr st b [off]
  | XLD b off _ | XST _ b off | PANDNM b off _ => at_ptr st b [off; off + 8]
  | _ => []
  end.
Definition event := (instr * list (nat * Z))%type.
Fixpoint trace_exec (c : list instr) (st : state) : list event :=
  match c with
  | [] => []
  | i :: c' => (i, accesses i st) :: match step i st with Some st' => trace_exec c' st' | None => [] end
  end.
Fixpoint trace_loop (n : nat) (c : list instr) (st : state) : list event :=
  match n with
  | O => []
  | S n' => trace_exec c st ++
            match exec c st with
            | Some st' => match zf st' with Some false => trace_loop n' c st' | _ => [] end
            | None => [] end
  end.
Definition trace_item (it : item) (st : state) : list event :=
  match it with Do i => [(i, accesses i st)] | Loop c => trace_loop 200 c st | Call c => trace_exec c st end.
Fixpoint trace (c : list item) (st : state) : list event :=
  match c with
  | [] => []
  | it :: c' => trace_item it st ++ match step_item it st with Some st' => trace c' st' | None => [] end
  end.

(** The observer learns nothing: two calls that agree in the arguments at the positions [public] (the
    pointers) look the same whenever both run to the end, whatever the other arguments and memory are. *)
Definition oblivious (frame : nat) (public : list nat) (code : list item) : Prop :=
  forall h h' al al' args args' st st', (forall k, In k public -> nth_error args k = nth_error args' k) ->
  run code (init h al args frame) = Some st -> run code (init h' al' args' frame) = Some st' ->
  trace code (init h al args frame) = trace code (init h' al' args' frame).
