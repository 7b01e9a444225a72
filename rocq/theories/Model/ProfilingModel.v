(** Model of the profiling decorator of pandora2d/profiling.py: two threads and a two-way pipe, any interleaving. *)
From Coq Require Import ZArith List Bool.
Import ListNotations.
Open Scope Z_scope.

Section Profiling.
  (** Arguments, values and errors of the decorated function; the world it reads and changes. *)
  Variables Args Val Err World : Type.
  Inductive outcome := Ret (v : Val) | Exc (e : Err).
  (** The decorated function: with these arguments and this world, an outcome and a new world are possible. *)
  Variable runs : Args -> World -> outcome -> World -> Prop.
  (** Whether the CSV file can be written (profiling.py:204-226), the error otherwise. *)
  Variable csv_error : option Err.

  (** profiling.py:170-228: the calling thread. The messages of the pipe are numbers (0: ready). *)
  Inductive main_pc :=
  | PollReady                                       (* 177: poll(THREAD_TIMEOUT) *)
  | RecvReady                                       (* 178 *)
  | Call                                            (* 185 *)
  | SendStop (v : Val)                              (* 191 *)
  | PollEnd (v : Val)                               (* 193 *)
  | RecvMemory (v : Val)                            (* 194 *)
  | RecvCpu (v : Val) (memory : Z)                  (* 195 *)
  | WriteCsv (v : Val) (memory cpu : option Z)      (* 202-226: the columns Max_Memory and Max_CPU *)
  | Done (o : outcome) (row : option (option Z * option Z)).  (* 228, or an error: the frame is still there *)

  (** profiling.py:116-144: the monitoring thread. *)
  Inductive monitor_pc :=
  | SendReady                          (* 126 *)
  | Measure (memory cpu : Z)           (* 130-135 *)
  | Poll (memory cpu : Z)              (* 137 *)
  | SendMemory (memory cpu : Z)        (* 140 *)
  | SendCpu (cpu : Z)                  (* 141 *)
  | Ended.

  Record state := mkState {
    st_main : main_pc;
    st_monitor : monitor_pc;
    to_parent : list Z;                (* messages sent by the monitor, oldest first *)
    to_child : list Z;                 (* messages sent by the caller, oldest first *)
    st_world : World;
    st_calls : list Args;              (* calls of the function, last first *)
    st_released : bool }.              (* the frame of the wrapper is freed: its end of the pipe is closed *)

  (** profiling.py:173-176: the thread is started. *)
  Definition enabled_start (w : World) : state := mkState PollReady SendReady [] [] w [] false.

  Variable a : Args.

  (** Steps of the caller. *)
  Inductive main_step : state -> state -> Prop :=
  | m_poll_ready t p c w k m q : main_step (mkState PollReady t (m :: p) c w k q) (mkState RecvReady t (m :: p) c w k q)
  | m_poll_ready_timeout t c w k q : main_step (mkState PollReady t [] c w k q) (mkState Call t [] c w k q)
  | m_recv_ready t p c w k m q : main_step (mkState RecvReady t (m :: p) c w k q) (mkState Call t p c w k q)
  | m_call_ret t p c w k v w' q : runs a w (Ret v) w' -> main_step (mkState Call t p c w k q) (mkState (SendStop v) t p c w' (a :: k) q)
  | m_call_exc t p c w k e w' q : runs a w (Exc e) w' -> main_step (mkState Call t p c w k q) (mkState (Done (Exc e) None) t p c w' (a :: k) q)
  | m_send_stop t p c w k v q : main_step (mkState (SendStop v) t p c w k q) (mkState (PollEnd v) t p (c ++ [0]) w k q)
  | m_poll_end t p c w k v m q : main_step (mkState (PollEnd v) t (m :: p) c w k q) (mkState (RecvMemory v) t (m :: p) c w k q)
  | m_poll_end_timeout t c w k v q : main_step (mkState (PollEnd v) t [] c w k q) (mkState (WriteCsv v None None) t [] c w k q)
  | m_recv_memory t p c w k v m q : main_step (mkState (RecvMemory v) t (m :: p) c w k q) (mkState (RecvCpu v m) t p c w k q)
  | m_recv_cpu t p c w k v mem m q : main_step (mkState (RecvCpu v mem) t (m :: p) c w k q) (mkState (WriteCsv v (Some mem) (Some m)) t p c w k q)
  | m_write t p c w k v mem cpu q : csv_error = None -> main_step (mkState (WriteCsv v mem cpu) t p c w k q) (mkState (Done (Ret v) (Some (mem, cpu))) t p c w k q)
  | m_write_error t p c w k v mem cpu e q : csv_error = Some e -> main_step (mkState (WriteCsv v mem cpu) t p c w k q) (mkState (Done (Exc e) None) t p c w k q).

  (** The frame of the wrapper is freed once the call is finished and nothing refers to it (a traceback does). *)
  Inductive release_step : state -> state -> Prop :=
  | r_release o row t p c w k : release_step (mkState (Done o row) t p c w k false) (mkState (Done o row) t p c w k true).

  (** Steps of the monitor: a send fails (BrokenPipeError, the end of the thread) when the other end is closed; poll is true with a message or a closed end. *)
  Inductive monitor_step : state -> state -> Prop :=
  | t_ready x p c w k : monitor_step (mkState x SendReady p c w k false) (mkState x (Measure 0 0) (p ++ [0]) c w k false)
  | t_ready_broken x p c w k : monitor_step (mkState x SendReady p c w k true) (mkState x Ended p c w k true)
  | t_measure x p c w k mem cpu mem' cpu' q : 0 <= mem' -> 0 <= cpu' ->
      monitor_step (mkState x (Measure mem cpu) p c w k q) (mkState x (Poll (Z.max mem mem') (Z.max cpu cpu')) p c w k q)
  | t_poll_stop x p c w k mem cpu m q : monitor_step (mkState x (Poll mem cpu) p (m :: c) w k q) (mkState x (SendMemory mem cpu) p (m :: c) w k q)
  | t_poll_closed x p w k mem cpu : monitor_step (mkState x (Poll mem cpu) p [] w k true) (mkState x (SendMemory mem cpu) p [] w k true)
  | t_poll_timeout x p w k mem cpu : monitor_step (mkState x (Poll mem cpu) p [] w k false) (mkState x (Measure mem cpu) p [] w k false)
  | t_memory x p c w k mem cpu : monitor_step (mkState x (SendMemory mem cpu) p c w k false) (mkState x (SendCpu cpu) (p ++ [mem]) c w k false)
  | t_memory_broken x p c w k mem cpu : monitor_step (mkState x (SendMemory mem cpu) p c w k true) (mkState x Ended p c w k true)
  | t_cpu x p c w k cpu : monitor_step (mkState x (SendCpu cpu) p c w k false) (mkState x Ended (p ++ [cpu]) c w k false)
  | t_cpu_broken x p c w k cpu : monitor_step (mkState x (SendCpu cpu) p c w k true) (mkState x Ended p c w k true).

  Definition step (s s' : state) : Prop := main_step s s' \/ monitor_step s s' \/ release_step s s'.
  Inductive steps : state -> state -> Prop :=
  | steps_refl s : steps s s
  | steps_next s s' s'' : step s s' -> steps s' s'' -> steps s s''.

  (** profiling.py:170-171: expert mode off. *)
  Inductive disabled_call : World -> outcome -> World -> list Args -> Prop :=
  | d_call w o w' : runs a w o w' -> disabled_call w o w' [a].
End Profiling.
Arguments Ret {Val Err}. Arguments Exc {Val Err}.
Arguments PollReady {Val Err}. Arguments RecvReady {Val Err}. Arguments Call {Val Err}. Arguments SendStop {Val Err}. Arguments PollEnd {Val Err}.
Arguments RecvMemory {Val Err}. Arguments RecvCpu {Val Err}. Arguments WriteCsv {Val Err}. Arguments Done {Val Err}.
Arguments mkState {Args Val Err World}. Arguments st_main {Args Val Err World}. Arguments st_monitor {Args Val Err World}. Arguments to_parent {Args Val Err World}.
Arguments to_child {Args Val Err World}. Arguments st_world {Args Val Err World}. Arguments st_calls {Args Val Err World}. Arguments st_released {Args Val Err World}.
