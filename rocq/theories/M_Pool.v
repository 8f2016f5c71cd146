(** The program of tools/benchmark/goroutines: workers that take lines from a channel and segment them with one dictionary.

    Simplifications: the goroutines are all there from the start (one that has not begun is one that has made no step); one step of the machine is one
    channel operation or one access of the dictionary (M_Conc); the clock and the log are left out. The lines are given (openBook, lines 31-52). *)
From Verif Require Export M_Conc.
Set Implicit Arguments. Unset Strict Implicit.

Section Pool.
  Variable E : env.
  (** tools/benchmark/goroutines/goroutines.go:24-29 worker: before [range], inside Segment, behind the loop, returned. *)
  Inductive wstate : Type :=
  | WIdle
  | WRun (line : bytes) (p : prog E (answer E))
  | WEnd
  | WExit.
  (** [p_send]: what main has still to send; [p_queue], [p_closed]: channel task; [p_done]: values in channel done; [p_recv]: how many main has received;
      [p_log]: results of the Segment calls, in the order in which they returned (the program drops them). *)
  Record pool : Type := {
    p_dict : dict E;
    p_send : list bytes;
    p_closed : bool;
    p_queue : list bytes;
    p_work : list wstate;
    p_done : nat;
    p_recv : nat;
    p_log : list (bytes * answer E)
  }.
  Variables (c : cfg) (threads cap : nat).

  (** goroutines.go:16-22, 63-66: [threads] is numThreads, [cap] the capacity of task; done has capacity numThreads. *)
  Definition pool_start (d : dict E) (lines : list bytes) (runs : nat) : pool :=
    {| p_dict := d; p_send := concat (repeat lines runs); p_closed := false; p_queue := []; p_work := repeat WIdle threads; p_done := 0; p_recv := 0; p_log := [] |}.

  (** goroutines.go:72-82: one step of main; None if it is blocked or at the end. *)
  Definition main_step (s : pool) : option pool :=
    match p_send s with
    | l :: rest =>
      if length (p_queue s) <? cap
      then Some {| p_dict := p_dict s; p_send := rest; p_closed := p_closed s; p_queue := p_queue s ++ [l]; p_work := p_work s; p_done := p_done s; p_recv := p_recv s; p_log := p_log s |}
      else None
    | [] =>
      if negb (p_closed s)
      then Some {| p_dict := p_dict s; p_send := []; p_closed := true; p_queue := p_queue s; p_work := p_work s; p_done := p_done s; p_recv := p_recv s; p_log := p_log s |}
      else if (p_recv s <? threads) && (0 <? p_done s)
      then Some {| p_dict := p_dict s; p_send := []; p_closed := true; p_queue := p_queue s; p_work := p_work s; p_done := p_done s - 1; p_recv := S (p_recv s); p_log := p_log s |}
      else None
    end.
  Definition with_work (s : pool) (d : dict E) (queue : list bytes) (i : nat) (w : wstate) (done : nat) (log : list (bytes * answer E)) : pool :=
    {| p_dict := d; p_send := p_send s; p_closed := p_closed s; p_queue := queue; p_work := upd (p_work s) i w; p_done := done; p_recv := p_recv s; p_log := log |}.
  (** goroutines.go:24-29: one step of worker [i]. *)
  Definition worker_step (i : nat) (s : pool) : option pool :=
    match nth_error (p_work s) i with
    | Some WIdle =>
      match p_queue s with
      | l :: q => Some (with_work s (p_dict s) q i (WRun l (call_p c (CSegment l false))) (p_done s) (p_log s))
      | [] => if p_closed s then Some (with_work s (p_dict s) [] i WEnd (p_done s) (p_log s)) else None
      end
    | Some (WRun l (Ret a)) => Some (with_work s (p_dict s) (p_queue s) i WIdle (p_done s) (p_log s ++ [(l, a)]))
    | Some (WRun l (Read f)) => Some (with_work s (p_dict s) (p_queue s) i (WRun l (f (p_dict s))) (p_done s) (p_log s))
    | Some (WRun l (Write f p)) => Some (with_work s (f (p_dict s)) (p_queue s) i (WRun l p) (p_done s) (p_log s))
    | Some WEnd => if p_done s <? threads then Some (with_work s (p_dict s) (p_queue s) i WExit (S (p_done s)) (p_log s)) else None
    | _ => None
    end.
  (** Goroutine 0 is main. *)
  Definition pool_step (g : nat) (s : pool) : option pool := match g with O => main_step s | S i => worker_step i s end.
  (** A schedule; a goroutine that is blocked when it is its turn does nothing. *)
  Fixpoint pool_run (sched : list nat) (s : pool) : pool :=
    match sched with
    | [] => s
    | g :: t => pool_run t (match pool_step g s with Some s' => s' | None => s end)
    end.
  (** main has left the loop of lines 80-82. *)
  Definition pool_over (s : pool) : Prop := p_send s = [] /\ p_closed s = true /\ p_recv s = threads.
End Pool.
Arguments WIdle {E}. Arguments WEnd {E}. Arguments WExit {E}.
