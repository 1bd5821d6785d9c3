(** Vocabulary of the properties of threads of a C program. *)
From Coq Require Import ZArith List Bool.
Import ListNotations.
From Verif Require Import Base Fmt Wrappers CpuInfo Spec ApiSpec Lib Sets Api Thread ThreadSpec TraceSpec CThread.
Open Scope Z_scope.

(** The address of position [a] of plane [n] of the destination. *)
Definition place (q : request) (n : nat) (a : Z) : Z := r_base (nth n (q_to q) (Region 0 0)) + a.

(** Address [x] holds a byte of the destination image: of its rows, not of the padding between. *)
Definition target_byte (q : request) (x : Z) : Prop :=
  exists n a, in_image (q_dst q) (q_w q) (q_h q) n a /\ x = place q n a.

(** Calls that may be made at the same time: each of them converts an image that lies in the memory
    behind the pointers (C47); the rows of its destination planes share no byte with each other, nor
    with those of another call, nor with the memory that any of the calls has as a source. The memory
    behind the pointers of different destinations may overlap. *)
Definition calls_ok (set : instruction_set) (T : target) (hp : memory) (calls : list request) : Prop :=
  (forall q, In q calls ->
     c_call set T (q_w q) (q_h q) (q_src q) (q_dst q) (map (bytes_of hp) (q_from q)) (map (bytes_of hp) (q_to q)) /\
     forall n a n' a', in_image (q_dst q) (q_w q) (q_h q) n a -> in_image (q_dst q) (q_w q) (q_h q) n' a' ->
       place q n a = place q n' a' -> n = n' /\ a = a') /\
  (forall q q' r x, In q calls -> In q' calls -> target_byte q x -> In r (q_from q') -> ~ inside x r) /\
  (forall t u q q' x, nth_error calls t = Some q -> nth_error calls u = Some q' -> t <> u ->
     target_byte q x -> target_byte q' x -> False).

(** What the call writes to position [a] of plane [n] when it is alone. *)
Definition alone_byte (set : instruction_set) (T : target) (hp : memory) (q : request) (n : nat) (a v : Z) : Prop :=
  exists after, c_convert (converters set) T (q_w q) (q_h q) (q_src q) (q_dst q)
      (map (bytes_of hp) (q_from q)) (map (bytes_of hp) (q_to q)) None =
      Ok (C_Ok, None) (Mem (map (bytes_of hp) (q_from q)) after) /\
    v = nth (Z.to_nat a) (nth n after []) 0.
