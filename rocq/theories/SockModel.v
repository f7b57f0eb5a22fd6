(** Model of the message framing of SocketEnvironment,
    /repo/tensorforce/environments/socket_environment.py 51-139.

    Bytes are integers.  One direction of a connection is the sequence of bytes sent but not
    yet received; how many bytes a call of recv returns and a call of send accepts is left
    open ([c_recv], [c_send]: any number for each call, cut to what is possible), so that
    every way of splitting a message in transit is covered, and a closed connection (recv
    returns nothing).  Simplified: int() of the eight header bytes (77, 114, 128) accepts
    digits only (Python also accepts spaces, signs and underscores).  The encodings
    (str.encode / msgpack) are arbitrary functions. *)

From Coq Require Import String List ZArith Bool.
From Verif Require Import Base.
Import ListNotations.
Open Scope string_scope.
Open Scope list_scope.
Open Scope Z_scope.

(** socket_environment.py 52-66 *)
Definition bytes := list Z.
(** len(...), e.g. 55, 104 *)
Definition len (b : bytes) : Z := Z.of_nat (length b).

(** Bytes in transit, and the numbers of calls so far (52-140) *)
Record connection := Connection { c_bytes : bytes; c_recvs : nat; c_sends : nat }.

Section Socket.
Variable c_recv c_send : nat -> nat.
(** 37: MAX_BYTES *)
Definition max_bytes : Z := 4096.

(** socket.recv(n): at most n of the bytes in transit, in order (69, 74, 80, 111, 117) *)
Definition recv (n : Z) (c : connection) : bytes * connection :=
  let k := Nat.min (Z.to_nat n) (c_recv (c_recvs c)) in
  (firstn k (c_bytes c), Connection (skipn k (c_bytes c)) (c_recvs c + 1) (c_sends c)).

(** socket.send(b): accepts a part of b, returns its length (56, 63, 98, 105) *)
Definition send (b : bytes) (c : connection) : Z * connection :=
  let k := Nat.min (length b) (c_send (c_sends c)) in
  (Z.of_nat k, Connection (c_bytes c ++ firstn k b) (c_recvs c) (c_sends c + 1)).

(** '{:08d}'.format(n).encode() (55, 62, 104): decimal digits, padded to eight *)
Fixpoint digits (fuel : nat) (n : Z) : bytes :=
  match fuel with
  | O => [48 + n]
  | S f => if n <? 10 then [48 + n] else digits f (n / 10) ++ [48 + n mod 10]
  end.
(** 55, 62, 104 *)
Definition format8 (n : Z) : bytes :=
  let d := digits (Z.to_nat n) n in repeat 48 (8 - length d) ++ d.

(** int(b.decode()) (77, 114, 128) *)
Definition parse (b : bytes) : res Z :=
  if forallb (fun x => (48 <=? x) && (x <=? 57)) b then Ok (fold_left (fun v x => 10 * v + (x - 48)) b 0)
  else Err "invalid literal for int()".

(** 54-58, 61-65, 103-107: length and content, in one call of send *)
Definition send_block (b : bytes) (c : connection) : res connection :=
  let (k, c) := send (format8 (len b) ++ b) c in
  if k =? len b + 8 then Ok c else Err "unexpected".

(** 79-82, 116-119, 130-133: the loop over full parts, [k] to go, n done *)
Fixpoint read_parts (k : nat) (n : Z) (s : bytes) (c : connection) : res (bytes * connection) :=
  match k with
  | O => Ok (s, c)
  | S k =>
    let (x, c) := recv max_bytes c in
    let s := s ++ x in
    if len s =? n * max_bytes then read_parts k (n + 1) s c else Err "unexpected"
  end.

(** 74-85, 111-122, 125-136: length and content *)
Definition read_block (c : connection) : res (bytes * connection) :=
  let (h, c) := recv 8 c in
  if negb (len h =? 8) then Err "unexpected"
  else
    do n <- parse h;
    do sc <- read_parts (Z.to_nat (n / max_bytes)) 0 [] c;
    let (s, c) := sc in
    let (x, c) := recv (n mod max_bytes) c in
    let s := s ++ x in
    if len s =? n then Ok (s, c) else Err "unexpected".

Context {F K V : Type}.
Variable encode : F -> bytes.          (* str.encode *)
Variable decode : bytes -> res F.
Variable pack_kwargs : K -> bytes.     (* msgpack.packb of the keyword arguments *)
Variable unpack_kwargs : bytes -> res K.
Variable pack : V -> bytes.            (* msgpack.packb of results *)
Variable unpack : bytes -> res V.

(** 52-65 *)
Definition proxy_send (m : F * K) (c : connection) : res connection :=
  do c <- send_block (encode (fst m)) c;
  send_block (pack_kwargs (snd m)) c.

(** 110-139 *)
Definition remote_receive (c : connection) : res ((F * K) * connection) :=
  do bc <- read_block c;
  let (b, c) := bc in
  do f <- decode b;
  do bc <- read_block c;
  let (b, c) := bc in
  do k <- unpack_kwargs b;
  Ok ((f, k), c).

(** 96-107 *)
Definition remote_send (m : bool * V) (c : connection) : res connection :=
  let (k, c) := send [if fst m then 49 else 48] c in
  if negb (k =? 1) then Err "unexpected" else send_block (pack (snd m)) c.

(** 68-88 *)
Definition proxy_receive (c : connection) : res ((bool * V) * connection) :=
  let (x, c) := recv 1 c in
  match x with
  | [b] =>
    if negb (b =? 48) && negb (b =? 49) then Err "unexpected"
    else
      do bc <- read_block c;
      let (s, c) := bc in
      do v <- unpack s;
      Ok ((b =? 49, v), c)
  | _ => Err "unexpected"
  end.
End Socket.

(** A sequence of messages sent and received, up to the first error: the messages received (52-140) *)
Inductive op (M : Type) := Send (m : M) | Receive.
Arguments Send {M} m.
Arguments Receive {M}.
(** a sequence of sends and receives, 52-140 *)
Fixpoint exchange {M} (send : M -> connection -> res connection) (receive : connection -> res (M * connection)) (l : list (op M)) (c : connection)
  : list M * option string :=
  match l with
  | [] => ([], None)
  | Send m :: l => match send m c with Ok c => exchange send receive l c | Err e => ([], Some e) end
  | Receive :: l => match receive c with
                    | Ok (m, c) => let (r, e) := exchange send receive l c in (m :: r, e)
                    | Err e => ([], Some e)
                    end
  end.
