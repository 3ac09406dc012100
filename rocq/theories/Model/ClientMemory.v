(* The buffer `defragmented` of the client's handshake: Model.Client with the buffer in the result *)
From Verif Require Import Model.Base Model.Alert Model.Stream Model.Client.

(* net/client/connection.rs:105-146: client_reads, with `defragmented` as it is after the last read that was handled *)
Fixpoint client_reads_kept (cfg : client_config) (e : client_draws) (now : Z) (h : client_hs) (defrag : list Z) (reads : list (list Z))
    : (client_hs * list Z) * option (outcome tls_error unit) :=
  match cl_state h with
  | CsReady => ((h, defrag), Some (Ok tt))
  | _ =>
      match reads with
      | [] => ((h, defrag), None)
      | chunk :: rest =>
          match tcp_read chunk with
          | Ok rx =>
              let defrag := match defrag with [] => [] | _ => defrag ++ rx end in
              match client_records (S (length rx + length defrag)) cfg e now h rx defrag 0 with
              | ((h, defrag), Ok _) =>
                  match cl_flush h with
                  | (h, Ok _) => client_reads_kept cfg e now h defrag rest
                  | (h, o) => ((h, defrag), Some o)
                  end
              | ((h, defrag), o) => ((h, defrag), Some o)
              end
          | Err er => ((h, defrag), Some (Err er))
          | Panic => ((h, defrag), Some Panic)
          end
      end
  end.

(* net/client/connection.rs:101-146 and 30-37: the bytes in `defragmented` after these reads *)
Definition connect_kept (cfg : client_config) (e : client_draws) (now : Z) (so : sock) (reads : list (list Z)) : list Z :=
  match send_client_hello cfg e (client_new e so) with
  | (h, Ok _) => snd (fst (client_reads_kept cfg e now h [] reads))
  | _ => []
  end.
