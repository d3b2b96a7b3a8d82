(** The SCGI server of the C CGI library and its sealed texts (plugins/request/ccgi-1.2/prefork.c 27-130, 172-229, 279-470; crypt.c 25-170)
    and the settings it is started with (plugins/request/request.c 283-314).

    Standard input is a list of bytes.  The parent and its children are a machine whose events are moves of the parent, messages and exits of
    children.  Left out: sockets, the log, SIGTERM sent to the parent, and what a child does with a request.
    SHA1, AES and the key made of the password are given as functions on bytes. *)
From Coq Require Import ZArith.
From Verif Require Import Common NumModel CodecModel ScgiSpec.
Local Open Scope Z_scope.

(** * prefork.c 172-229, [read_env] *)
Definition isdigit (c : N) : bool := ((48 <=? c) && (c <=? 57))%N.
(** 192-194: the length; the byte behind it; the rest *)
Fixpoint read_len (len : Z) (inp : text) : outcome (Z * option N * text) :=
  match inp with
  | [] => Ok (len, None, [])
  | c :: r =>
      if isdigit c then
        if in_int (len * 10 + Z.of_N c) then read_len (len * 10 + Z.of_N c - 48) r else UB
      else Ok (len, Some c, r)
  end.
(** 208-212: every other NUL becomes [=]; [k]: the NULs so far *)
Fixpoint mark (k : nat) (b : text) : text * nat :=
  match b with
  | [] => ([], k)
  | c :: r =>
      if (c =? 0)%N then let (r', n) := mark (S k) r in ((if Nat.odd (S k) then 61%N else 0%N) :: r', n)
      else let (r', n) := mark k r in (c :: r', n)
  end.
(** 218-226: the strings; [size]: of the array, [cur]: from [p] on *)
Fixpoint entries (size : nat) (b cur : text) (env : list text) : outcome (list text) :=
  match b with
  | [] => if (length env <? size)%nat then Ok env else UB
  | c :: r =>
      if (c =? 0)%N then (if (length env <? size)%nat then entries size r [] (env ++ [cur]) else UB)
      else entries size r (cur ++ [c]) env
  end.
Definition read_env (inp : text) : outcome (option (list text) * text) :=
  do (p, r) <- read_len 0 inp;
  let (len, k) := p in
  match k with
  | Some 58%N =>
      if len <? 4 then Ok (None, r)
      else
        let n := Z.to_nat len in
        if (length r <? n)%nat then Ok (None, [])
        else match skipn n r with
        | 44%N :: body =>
            let (b, k) := mark 0 (firstn n r) in
            do env <- entries (Nat.div k 2 + 1) b [] [];
            Ok (Some env, body)
        | _ :: body => Ok (None, body)
        | [] => Ok (None, [])
        end
  | _ => Ok (None, r)
  end.

(** * The scoreboard *)
Definition idle : Z := 1.
Definition busy : Z := 2.
(** prefork.c 35-46, [score_board]: [proc] (pid and state); the limits are in [limits] *)
Record board := mkB { procs : list (Z * Z); numproc : Z; numidle : Z }.
Record limits := mkL { maxproc : Z; minidle : Z; maxidle : Z }.
(** prefork.c 50-60, [score_new] *)
Definition score_new (l : limits) : board := mkB (repeat (0, 0) (Z.to_nat (maxproc l))) 0 0.
(** prefork.c 64-73, [score_find] *)
Fixpoint score_find (ps : list (Z * Z)) (pid : Z) : option nat :=
  match ps with [] => None | (p, _) :: r => if p =? pid then Some O else option_map S (score_find r pid) end.
Definition set_proc (ps : list (Z * Z)) (i : nat) (p : Z * Z) : list (Z * Z) := firstn i ps ++ p :: skipn (S i) ps.
(** prefork.c 77-86, [score_add] *)
Definition score_add (b : board) (pid : Z) : board :=
  match score_find (procs b) 0 with
  | Some i => mkB (set_proc (procs b) i (pid, idle)) (numproc b + 1) (numidle b + 1)
  | None => b
  end.
(** prefork.c 90-100, [score_remove] *)
Definition score_remove (b : board) (pid : Z) : board :=
  match score_find (procs b) pid with
  | Some i =>
      let st := snd (nth i (procs b) (0, 0)) in
      mkB (set_proc (procs b) i (0, st)) (numproc b - 1) (if st =? idle then numidle b - 1 else numidle b)
  | None => b
  end.
(** prefork.c 104-116, [score_update] *)
Definition score_update (b : board) (pid st : Z) : board :=
  match score_find (procs b) pid with
  | Some i =>
      if snd (nth i (procs b) (0, 0)) =? st then b
      else mkB (set_proc (procs b) i (pid, st)) (numproc b) (if st =? idle then numidle b + 1 else numidle b - 1)
  | None => b
  end.
(** prefork.c 120-129, [score_kill]: who is killed *)
Fixpoint score_kill (ps : list (Z * Z)) : option Z :=
  match ps with [] => None | (p, st) :: r => if negb (p =? 0) && (st =? idle) then Some p else score_kill r end.

(** prefork.c 302-313, the arguments *)
Definition sanity (maxproc minidle maxidle : Z) : outcome limits :=
  let minidle := if minidle <=? 0 then 2 else minidle in
  do maxidle <- (if maxidle <=? minidle then (if in_int (minidle + 2) then Ok (minidle + 2) else UB) else Ok maxidle);
  let maxproc := if maxproc <=? 0 then maxidle else maxproc in
  let maxproc := if 10000 <? maxproc then 10000 else maxproc in
  Ok (mkL maxproc minidle maxidle).
(** request.c 283-309, [ctr_request_serve]: the options as numbers *)
Definition option_int (o : option num) (d : Z) : outcome Z := match o with Some v => c_int v | None => Ok d end.
Definition serve_limits (omin omax oproc : option num) : outcome limits :=
  do mi <- option_int omin 8; do ma <- option_int omax 8; do mp <- option_int oproc 100; sanity mp mi ma.

(** * prefork.c 343-404, the parent *)
(** [Top]: at the beginning of the loop (347); [Ready]: the flag was looked at (369), [read] not yet called; [Reading]: in [read];
    [After]: behind it (383); [Over]: returned (360) *)
Inductive phase := Top | Ready | Reading | After | Over.
(** [pipe]: messages written and not read; [kids]: children not waited for, and whether they are alive; [exited]: [child_exited];
    [killed]: those sent SIGTERM, the latest first *)
Record server := mkS { board_of : board; pipe : list (Z * Z); kids : list (Z * bool); exited : bool; at_ : phase; killed : list Z }.
Inductive event := Parent (fork : option Z) | Send (pid : Z) (st : Z) | Exit (pid : Z).
Definition is_kid (pid : Z) (ks : list (Z * bool)) : bool := existsb (fun k => fst k =? pid) ks.
Definition is_alive (pid : Z) (ks : list (Z * bool)) : bool := existsb (fun k => (fst k =? pid) && snd k) ks.
Definition look (s : server) : server := mkS (board_of s) (pipe s) (kids s) (exited s) (if exited s then After else Ready) (killed s).
(** 347-367; [fork]: what it answers (a pid that no child has), [None] if it fails *)
Definition at_top (l : limits) (s : server) (fork : option Z) : option server :=
  let b := board_of s in
  if (numidle b <? minidle l) && (numproc b <? maxproc l) then
    match fork with
    | Some pid =>
        if (0 <? pid) && negb (is_kid pid (kids s))
        then Some (mkS (score_add b pid) (pipe s) (kids s ++ [(pid, true)]) (exited s) Top (killed s)) else None
    | None => if numproc b =? 0 then Some (mkS b (pipe s) (kids s) (exited s) Over (killed s)) else Some (look s)
    end
  else Some (look s).
(** 391-404 *)
Definition dead (ks : list (Z * bool)) : list Z := map fst (filter (fun k => negb (snd k)) ks).
Definition after (l : limits) (s : server) : server :=
  let b := board_of s in
  let kills := if maxidle l <? numidle b then match score_kill (procs b) with Some p => [p] | None => [] end else [] in
  mkS (fold_left score_remove (dead (kids s)) b) (pipe s) (filter snd (kids s)) false Top (kills ++ killed s).
Definition step (l : limits) (s : server) (e : event) : option server :=
  match e with
  | Parent fork =>
      match at_ s with
      | Top => at_top l s fork
      | Ready => Some (mkS (board_of s) (pipe s) (kids s) (exited s) Reading (killed s))
      | Reading =>
          match pipe s with
          | (pid, st) :: r => Some (mkS (score_update (board_of s) pid st) r (kids s) (exited s) After (killed s))
          | [] => None
          end
      | After => Some (after l s)
      | Over => None
      end
  | Send pid st =>
      if is_alive pid (kids s) && ((st =? idle) || (st =? busy))
      then Some (mkS (board_of s) (pipe s ++ [(pid, st)]) (kids s) (exited s) (at_ s) (killed s)) else None
  | Exit pid =>
      if is_alive pid (kids s)
      then Some (mkS (board_of s) (pipe s) (map (fun k => if fst k =? pid then (fst k, false) else k) (kids s)) true
                   (match at_ s with Reading => After | p => p end) (killed s)) else None
  end.
Fixpoint run (l : limits) (s : server) (es : list event) : option server :=
  match es with [] => Some s | e :: r => match step l s e with Some s' => run l s' r | None => None end end.
Definition begin (l : limits) : server := mkS (score_new l) [] [] false Top [].

(** * crypt.c *)
Section Crypt.
(** SHA1; AES-256-CBC with the key and the vector made of salt and password: encrypting, and all that decrypting answers *)
Variable sha1 : text -> text.
Variable aes unaes : text -> text -> text -> text.
Definition salt_size : nat := 8.
Definition digest_size : nat := 20.
(** crypt.c 55-67, [digest] *)
Definition digest (p password salt : text) : text := sha1 (salt ++ password ++ p).
(** crypt.c 79-108, [CGI_encrypt]; the salt is what [init_salt] makes.  The block has [EVP_MAX_BLOCK_LENGTH] (32) bytes more than it needs *)
Definition cgi_encrypt (salt p password : text) : outcome (option text) :=
  match p, password with
  | [], _ | _, [] => Ok None
  | _, _ =>
      let size := (salt_size + digest_size + length p + 32)%nat in
      if fits size then
        let out := aes salt password (digest p password salt ++ p) in
        if (salt_size + length out <=? size)%nat then encode_base64 (salt ++ out) else UB
      else UB
  end.
(** crypt.c 122-170, [CGI_decrypt] *)
Definition cgi_decrypt (q password : text) : outcome (option text) :=
  match q, password with
  | [], _ | _, [] => Ok None
  | _, _ =>
      do ret <- decode_base64 q;
      if (length ret <=? digest_size + salt_size)%nat then Ok None
      else
        let salt := firstn salt_size ret in
        let out := unaes salt password (skipn salt_size ret) in
        if (length ret + 32 <? length out)%nat then UB
        else if (digest_size <? length out)%nat then
          let data := skipn digest_size out in
          if text_eqb (firstn digest_size out) (digest data password salt)
          then (if (length data <=? length ret)%nat then Ok (Some data) else UB)
          else Ok None
        else Ok None
  end.
End Crypt.
