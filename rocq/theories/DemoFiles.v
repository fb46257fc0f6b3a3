(** A small file system and commands, for the examples beside C74. *)
From Coq Require Import String.
From Verif Require Import PyBase Env Cli Files Demo DemoTx.

Definition demo_files : file_system :=
  mk_fs (fun f => if str_eqb f (lit "keys/a.txt") then Ok (key1 ++ [10]) else if str_eqb f (lit "keys/b.c.txt") then Ok (key2 ++ [13; 10])
                  else if str_eqb f (lit "one/k.txt") then Ok ([32] ++ key1) else Err LibraryError)
        (fun d => if str_eqb d (lit "keys") then Ok [lit "a.txt"; lit ".txt"; lit "notes.md"; lit "b.c.txt"; lit "..txt"; lit "x.txt.bak"]
                  else if str_eqb d (lit "one/") then Ok [lit "k.txt"] else Err LibraryError).
Definition demo_parsed (task : string) (dir : option pystr) : parsed :=
  mk_parsed (lit task) None None dir None None None None None None None (lit "error") false false false (lit "log_bitcoin_toolset.txt").
