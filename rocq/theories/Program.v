(** The whole program: src/spex/__main__.py:49-188. *)
From Coq Require Import NArith List Bool.
From Verif Require Import PyStr Lint Extract Output Cli Disk Messages RunLog Args.
Import ListNotations.
Local Open Scope N_scope.

Section Program.
Variable version : str.
Variable read : str -> source.
Variable printable : N -> bool.
Variable qualname : ecls -> str.
Variable show : path -> str.
Variable printed : failure -> str.
Variable at_path : str -> thing.
Variable can_make : str -> bool.
Variable file_at : str -> path.
Variable dir_at : str -> str.
Variable cwd : str.

(** __main__.py:49-188: the arguments are read (115-128, Args.v); unless this ends the program, the
    inputs are processed (131-188, RunLog.v).  The directories made, the files written, the status
    and what is logged. *)
Inductive program (argv : list str) (d : disk) : list str -> effects -> N -> list entry -> Prop :=
| pg_exits st made :
    start at_path can_make file_at dir_at cwd argv = Exits st made -> program argv d made [] st []
| pg_starts k verbose made w st es :
    start at_path can_make file_at dir_at cwd argv = Starts k verbose made ->
    runs_log version read printable qualname show printed k verbose d w st es ->
    program argv d made w st es.
End Program.
