(* Model of anothertls/src/net/stream.rs *)
From Verif Require Import Model.Base Model.Alert Model.Suite Model.KeySchedule Model.Record.

(* `&mut self` methods: the new state and the result; `?` stops with the state reached *)
Definition sbind {S E A B} (m : S * outcome E A) (k : S -> A -> S * outcome E B) : S * outcome E B :=
  match m with
  | (s, Ok a) => k s a
  | (s, Err e) => (s, Err e)
  | (s, Panic) => (s, Panic)
  end.
Notation "'let@' ( s , x ) ':=' m 'in' k" := (sbind m (fun s x => k))
  (at level 200, s name, x pattern, m at level 100, k at level 200, right associativity).

(* std::net::TcpStream, writing side: the bytes it has taken so far, and how many more it takes before
   the connection breaks (None: it never does) *)
Record sock := Sock { so_sent : list Z; so_left : option nat }.
(* Write::write_all; on error a part may have been sent *)
Definition write_all (so : sock) (buf : list Z) : sock * bool :=
  match so_left so with
  | None => (Sock (so_sent so ++ buf) None, true)
  | Some k =>
      if Nat.leb (length buf) k then (Sock (so_sent so ++ buf) (Some (k - length buf)%nat), true)
      else (Sock (so_sent so ++ firstn k buf) (Some 0%nat), false)
  end.

(* net/stream.rs:14-18 *)
Record stream := Stream { st_sock : sock; st_protection : option rpp; st_buffer : list Z }.
(* net/stream.rs:21-27 *)
Definition stream_new (so : sock) : stream := Stream so None [].

(* net/stream.rs:49-55: the buffer is kept when the write fails *)
Definition flush (s : stream) : stream * outcome tls_error unit :=
  match write_all (st_sock s) (st_buffer s) with
  | (so, true) => (Stream so (st_protection s) [], Ok tt)
  | (so, false) => (Stream so (st_protection s) (st_buffer s), Err BrokenPipe)
  end.

(* a record in the protection of the stream: net/stream.rs:35-39, 84-88 *)
Definition protect (s : stream) (t : record_type) (data : list Z) : stream * outcome tls_error (list Z) :=
  match st_protection s with
  | Some p => let (p', r) := rpp_encrypt p (record_new t data) in (Stream (st_sock s) (Some p') (st_buffer s), r)
  | None => (s, Ok (record_as_bytes (record_new t data)))
  end.

(* net/stream.rs:32-47 *)
Definition write_record (s : stream) (t : record_type) (data : list Z) : stream * outcome tls_error unit :=
  let@ (s, w) := protect s t data in
  let s := Stream (st_sock s) (st_protection s) (st_buffer s ++ w) in
  if Nat.leb 2048 (length (st_buffer s)) then flush s else (s, Ok tt).

(* net/stream.rs:57-59 *)
Definition set_protection (s : stream) (p : option rpp) : stream := Stream (st_sock s) p (st_buffer s).

(* net/stream.rs:62-67: Write::write takes some of the bytes, here the first `took`; the caller gets their number *)
Definition tcp_write (s : stream) (took : nat) (buf : list Z) : stream * outcome tls_error nat :=
  match write_all (st_sock s) (firstn took buf) with
  | (so, true) => (Stream so (st_protection s) (st_buffer s), Ok (Nat.min took (length buf)))
  | (so, false) => (Stream so (st_protection s) (st_buffer s), Err BrokenPipe)
  end.

(* net/stream.rs:70-75.  `chunk` is what read(2) delivers, at most the size of the buffer; [] is the end of the
   stream or an error. *)
Definition tcp_read (chunk : list Z) : outcome tls_error (list Z) :=
  match chunk with [] => Err BrokenPipe | _ => Ok chunk end.

(* net/stream.rs:78-94 *)
Definition write_alert (s : stream) (err : tls_error) : stream * outcome tls_error unit :=
  let@ (s, w) := protect s RAlert [alert_level err; error_as_u8 err] in
  match write_all (st_sock s) w with
  | (so, true) => (Stream so (st_protection s) (st_buffer s), Ok tt)
  | (so, false) => (Stream so (st_protection s) (st_buffer s), Err BrokenPipe)
  end.

(* net/stream.rs:97-131.  `cap` is buf.len(); the result is the part of buf that was filled.  The check at :105 compares
   two numbers that are equal for every parsed record. *)
Definition tls_read (s : stream) (cap : nat) (chunk : list Z) : stream * outcome tls_error (list Z) :=
  let@ (s, rx) := (s, tcp_read chunk) in
  let@ (s, nrec) := (s, record_from_raw rx) in
  let rec := snd nrec in
  if negb (Nat.eqb (r_len rec) (length (r_fragment rec))) then (s, Panic) else
  let@ (s, data) :=
    match st_protection s with
    | Some p =>
        let (p', r) := rpp_decrypt p rec in
        let@ (s, td) := (Stream (st_sock s) (Some p') (st_buffer s), r) in
        match fst td with
        | RApplicationData => (s, Ok (snd td))
        | _ => (s, Err UnexpectedMessage)
        end
    | None =>
        match r_type rec with
        | RHandshake => (s, Ok (r_fragment rec))
        | _ => (s, Err UnexpectedMessage)
        end
    end in
  if Nat.ltb cap (length data) then (s, Panic) else (s, Ok data).

(* net/stream.rs:134-150 *)
Definition tls_write (s : stream) (src : list Z) : stream * outcome tls_error unit :=
  match st_protection s with
  | None => (s, Err InternalError)
  | Some _ =>
      let@ (s, w) := protect s RApplicationData src in
      match write_all (st_sock s) w with
      | (so, true) => (Stream so (st_protection s) (st_buffer s), Ok tt)
      | (so, false) => (Stream so (st_protection s) (st_buffer s), Err BrokenPipe)
      end
  end.
