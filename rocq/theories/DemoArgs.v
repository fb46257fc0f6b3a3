(** Command lines for the examples beside C77 and C78. *)
From Coq Require Import String.
From Verif Require Import PyBase Env Cli Files Args Demo.

Definition words (l : list string) : list pystr := map (fun s => lit s) l.
Definition parsed_with (task : string) (level : string) (debug stamp to_file : bool) (data : option pystr) (keys : option (list (list pystr))) : parsed :=
  mk_parsed (lit task) keys None None None None None data None None None (lit level) debug stamp to_file (lit "log_bitcoin_toolset.txt").
