(* Model of anothertls/src/utils/pem.rs. The file's text is an argument (list of bytes). *)
From Verif Require Import Model.Base Model.Base64 Model.Bytes.

(* utils/pem.rs:10-15 *)
Inductive pem_state := PStart | PInContent | PEnd.

(* str::split('\n'): always at least one piece *)
Fixpoint split_lines (l : list Z) : list (list Z) :=
  match l with
  | [] => [[]]
  | c :: t =>
      if c =? 10 then [] :: split_lines t
      else match split_lines t with
           | [] => [[c]]
           | h :: r => (c :: h) :: r
           end
  end.

Definition starts_with (p l : list Z) : bool := list_eqb (firstn (length p) l) p.

Definition dash5 : list Z := repeat 45 5.
Definition s_BEGIN : list Z := dash5 ++ [66; 69; 71; 73; 78].   (* "-----BEGIN" *)
Definition s_END : list Z := dash5 ++ [69; 78; 68].             (* "-----END" *)

(* HashMap<String, Vec<u8>>: association list, newest first; insert overwrites *)
Definition pem_map := list (list Z * list Z).
Definition pem_get (m : pem_map) (k : list Z) : option (list Z) :=
  option_map snd (find (fun e => list_eqb (fst e) k) m).

Record pem_st := { p_state : pem_state; p_title : list Z; p_content : list Z; p_map : pem_map }.

(* utils/pem.rs:26-45: one line. Slicing line[11..len-5] panics when the line is shorter than 16
   or one of the ends is inside a character. *)
Definition pem_line (s : pem_st) (line : list Z) : outcome unit pem_st :=
  match p_state s with
  | PInContent =>
      if starts_with s_END line then
        let! raw := decode (p_content s) in
        Ok {| p_state := PEnd; p_title := p_title s; p_content := [];
              p_map := (p_title s, raw) :: p_map s |}
      else Ok {| p_state := PInContent; p_title := p_title s;
                 p_content := p_content s ++ line; p_map := p_map s |}
  | _ =>
      if starts_with s_BEGIN line then
        if Nat.ltb (length line) 5 then Panic else
        let! t := str_slice line 11 (length line - 5) in
        Ok {| p_state := PInContent; p_title := t; p_content := p_content s; p_map := p_map s |}
      else Ok s
  end.

Fixpoint pem_lines (s : pem_st) (ls : list (list Z)) : outcome unit pem_st :=
  match ls with
  | [] => Ok s
  | l :: t => let! s' := pem_line s l in pem_lines s' t
  end.

(* utils/pem.rs:17-50, without the file read; None is `Err tt` *)
Definition pem_parse (text : list Z) : outcome unit pem_map :=
  let! s := pem_lines {| p_state := PStart; p_title := []; p_content := []; p_map := [] |}
                      (split_lines text) in
  match p_state s with
  | PEnd => Ok (p_map s)
  | _ => Err tt
  end.
