(** Properties of conversions that run at the same time (C58). *)
From Coq Require Import ZArith List Bool Lia.
Import ListNotations.
From Verif Require Import Base Fmt Wrappers CpuInfo Spec ApiSpec Lib Sets Api PropsConvert PropsPixel BandSpec Thread ThreadSpec ThreadFacts ThreadBandFacts.
Open Scope Z_scope.

(** C58: whatever the other threads do and however the steps of all of them are interleaved, a
    thread gets the answers it would get alone, and what it has written at the end is what it
    would have written alone. *)
Theorem C58_undisturbed : forall set T hp calls, threads_ok set T hp calls ->
  forall t qs ans e schedule, nth_error calls t = Some qs -> alone set T hp qs ans e ->
  let st := interleave set T schedule (start hp calls) in
  exists th rest, nth_error (snd st) t = Some th /\ map Answer ans = answers th ++ rest /\
    (idle th -> answers th = map Answer ans /\ forall r a, used_by qs r -> inside a r -> fst st a = e a).
Proof. exact undisturbed. Qed.
Print Assumptions C58_undisturbed.

(** C58: no thread waits for another: there is a number of steps after which it has finished,
    whenever it makes them. *)
Theorem C58_finishes : forall set T hp calls, threads_ok set T hp calls ->
  forall t qs, nth_error calls t = Some qs ->
  exists n, forall schedule, (n <= count_occ Nat.eq_dec schedule t)%nat ->
    exists th, nth_error (snd (interleave set T schedule (start hp calls))) t = Some th /\ idle th.
Proof. exact finishes. Qed.
Print Assumptions C58_finishes.

(** C58: nothing else is written, at any time. *)
Theorem C58_nothing_else_changes : forall set T hp calls, threads_ok set T hp calls ->
  forall schedule a, (forall qs r, In qs calls -> written_by qs r -> ~ inside a r) ->
  fst (interleave set T schedule (start hp calls)) a = hp a.
Proof. exact nothing_else. Qed.
Print Assumptions C58_nothing_else_changes.

(** C58: there is no data race: at no time is one thread about to write a byte that another one
    is about to access. *)
Theorem C58_no_data_race : forall set T hp calls, threads_ok set T hp calls ->
  forall schedule t u tht thu w a, t <> u ->
  nth_error (snd (interleave set T schedule (start hp calls))) t = Some tht ->
  nth_error (snd (interleave set T schedule (start hp calls))) u = Some thu ->
  next_access T tht = Some (true, a) -> next_access T thu = Some (w, a) -> False.
Proof. exact no_data_race. Qed.
Print Assumptions C58_no_data_race.

(** Threads are as assumed if no call faults on what memory holds when it begins; for threads of
    one call that is what memory holds now. *)
Theorem C58_calls_that_return : forall set T hp calls,
  (forall qs q, In qs calls -> In q qs -> borrowed q) -> independent calls ->
  (forall qs, In qs calls -> exists q o m, qs = [q] /\
     convert (converters set) T (q_w q) (q_h q) (q_src q) (q_dst q)
       (map (bytes_of hp) (q_from q)) (map (bytes_of hp) (q_to q)) = Ok o m) ->
  threads_ok set T hp calls.
Proof. exact single_calls. Qed.
Print Assumptions C58_calls_that_return.

(** C58: the bands of a picture are such threads. *)
Theorem C58_bands_are_threads : forall set T hp src dst w h from to m cuts,
  successful_call (converters set) T w h src dst (map (bytes_of hp) from) (map (bytes_of hp) to) m ->
  borrowed (Request w h src dst from to) -> own_buffers src -> own_buffers dst ->
  cuts_ok src dst h 0 cuts ->
  (forall qs q, In qs (band_threads src dst w h from to 0 cuts) -> In q qs ->
     exists m', successful_call (converters set) T w (q_h q) src dst
       (map (bytes_of hp) (q_from q)) (map (bytes_of hp) (q_to q)) m') ->
  threads_ok set T hp (band_threads src dst w h from to 0 cuts).
Proof. exact bands_are_threads. Qed.
Print Assumptions C58_bands_are_threads.

(** C58: the purpose of C40. A picture is cut into bands, each of which is converted by a thread of
    its own, into its part of one and the same destination. When all of them have finished, the
    destination holds what one call would have put there. *)
Theorem C58_one_picture : forall set T hp src dst w h from to m cuts schedule,
  successful_call (converters set) T w h src dst (map (bytes_of hp) from) (map (bytes_of hp) to) m ->
  own_buffers src -> own_buffers dst -> borrowed (Request w h src dst from to) ->
  cuts_ok src dst h 0 cuts ->
  (forall qs q, In qs (band_threads src dst w h from to 0 cuts) -> In q qs ->
     exists m', successful_call (converters set) T w (q_h q) src dst
       (map (bytes_of hp) (q_from q)) (map (bytes_of hp) (q_to q)) m') ->
  let st := interleave set T schedule (start hp (band_threads src dst w h from to 0 cuts)) in
  (forall th, In th (snd st) -> idle th) ->
  map (bytes_of (fst st)) to = dsts m /\ forall th, In th (snd st) -> answers th = [Answer Success].
Proof. exact one_picture. Qed.
Print Assumptions C58_one_picture.

(** A picture of 2x4 pixels in two bands, and both of its halves at once: two threads take turns. *)
Definition ex_hp : memory := fun a => (37 * a) mod 256.
Definition ex_from : list region := [Region 100 32].
Definition ex_to : list region := [Region 200 8; Region 300 2; Region 310 2].
Definition ex_src : image := Image Bgra CsRgb 1 None.
Definition ex_dst : image := Image I420 Bt601 3 None.
Definition ex_threads : list (list request) := band_threads ex_src ex_dst 2 4 ex_from ex_to 0 [2].
Definition ex_turns (n : nat) : list nat := concat (repeat [0; 1; 1]%nat n).

Lemma ex_bands_succeed : forall qs q, In qs ex_threads -> In q qs ->
  exists m', successful_call (converters X86) T64_debug 2 (q_h q) ex_src ex_dst
    (map (bytes_of ex_hp) (q_from q)) (map (bytes_of ex_hp) (q_to q)) m'.
Proof.
  intros qs q I Iq. cbn [ex_threads band_threads In] in I.
  destruct I as [<-|[<-|[]]]; destruct Iq as [<-|[]]; eexists; cbn [q_h q_from q_to]; check_success.
Qed.

Example C58_example :
  (exists m, successful_call (converters X86) T64_debug 2 4 ex_src ex_dst
     (map (bytes_of ex_hp) ex_from) (map (bytes_of ex_hp) ex_to) m) /\
  own_buffers ex_src /\ own_buffers ex_dst /\ borrowed (Request 2 4 ex_src ex_dst ex_from ex_to) /\
  cuts_ok ex_src ex_dst 4 0 [2] /\ threads_ok X86 T64_debug ex_hp ex_threads /\
  let st := interleave X86 T64_debug (ex_turns 240) (start ex_hp ex_threads) in
  (forall th, In th (snd st) -> idle th) /\
  map (bytes_of (fst st)) ex_to = [[153; 61; 188; 95; 156; 129; 62; 164]; [106; 144]; [147; 114]].
Proof.
  assert (S : exists m, successful_call (converters X86) T64_debug 2 4 ex_src ex_dst
     (map (bytes_of ex_hp) ex_from) (map (bytes_of ex_hp) ex_to) m) by (eexists; check_success).
  assert (O1 : own_buffers ex_src) by (intros E; discriminate E). assert (O2 : own_buffers ex_dst) by (intros E; discriminate E).
  split; [exact S|]. split; [exact O1|]. split; [exact O2|].
  assert (B : borrowed (Request 2 4 ex_src ex_dst ex_from ex_to)).
  { split; cbn [q_from q_to ex_from ex_to].
    - intros i j r r' Hi Hj Ne a. unfold inside.
      destruct i as [|[|[|i]]]; try (destruct i; discriminate); destruct j as [|[|[|j]]]; try (destruct j; discriminate);
        try tauto; injection Hi as <-; injection Hj as <-; cbn [r_base r_len]; lia.
    - intros r r' [<-|[<-|[<-|[]]]] [<-|[]] a; unfold inside; cbn [r_base r_len]; lia. }
  split; [exact B|].
  assert (C : cuts_ok ex_src ex_dst 4 0 [2]) by (split; [lia|]; split; [right; left; reflexivity|exact I]).
  split; [exact C|]. split.
  - destruct S as (m & S). exact (C58_bands_are_threads X86 T64_debug ex_hp ex_src ex_dst 2 4 ex_from ex_to m [2] S B O1 O2 C ex_bands_succeed).
  - split.
    + apply Forall_forall. vm_compute. repeat constructor.
    + vm_compute. reflexivity.
Qed.

(** Two threads about to access memory at the same time, one of them to write. *)
Example C58_accesses_example :
  map (next_access T64_debug) (snd (interleave X86 T64_debug (repeat 0%nat 104 ++ repeat 1%nat 106) (start ex_hp ex_threads))) =
    [Some (true, 200); Some (true, 205)].
Proof. vm_compute. reflexivity. Qed.
