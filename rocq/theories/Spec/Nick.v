(** Nicknames as a server sees them. *)
From Verif.Base Require Import Bytes.
From Verif.Model Require Import Message CaseMap Roster Nick.
Open Scope nat_scope.

(** The wanted nickname, and longer ones while they have less than 30 bytes. *)
Definition candidates (w : bytes) : list bytes := map (fun k => w ++ repeat "_"%char k) (seq 0 (S (29 - length w))).

(** A server where some nicknames are taken: how it answers a NICK by a user that
    is registering. *)
Definition answer (taken : bytes -> bool) (nick text : bytes) : nin :=
  if taken nick then NMsg (B "433") (B "srv") [B "*"; nick; text] else NMsg (B "001") (B "srv") [nick; text].

(** The conversation, until the user is registered or gives up. *)
Inductive outcome := Registered (nick : bytes) | GaveUp.
Inductive converse (taken : bytes -> bool) : nst -> bytes -> outcome -> Prop :=
| CvNext s nick text s' nick' o : nstep (answer taken nick text) s = (s', [OAsk nick']) -> converse taken s' nick' o -> converse taken s nick o
| CvDone s nick text s' : nstep (answer taken nick text) s = (s', []) -> n_reg s' = true -> n_nick s' = nick -> converse taken s nick (Registered nick)
| CvGiveUp s nick text s' : nstep (answer taken nick text) s = (s', [OGiveUp]) -> converse taken s nick GaveUp.

(** What a server may send before the user is registered. *)
Definition early (i : nin) : Prop := match i with NMsg c _ _ => c <> B "001" /\ c <> B "NICK" /\ c <> B "731" | NIsupport _ => True | _ => False end.

(** A registered user of a server without MONITOR. Requests to change the
    nickname (the bouncer's own ones are marked) are answered in order: accepted,
    or refused since the nickname is in use, or, if it is the nickname the user
    has, not at all. The server may also change the nickname by itself. [fire] is
    the timer, which may be late: it may fire once more after it was stopped. *)
Record nsys := NSys { ny_s : nst; ny_asked : list (bool * bytes) }.
Inductive nlabel := LTick | LWant (nick : bytes) | LAccept | LRefuse (text : bytes) | LIgnore | LForce (nick : bytes) | LOther (from new : bytes).

Inductive ystep (fire : bytes) : nsys -> nlabel -> list nout -> nsys -> Prop :=
| YTick s q s' o : nstep (NTick fire) s = (s', o) -> ystep fire (NSys s q) LTick o (NSys s' (q ++ map (fun n => (true, n)) (asked o)))
| YWant s q w s' o : w <> [] -> nstep (NWant w) s = (s', o) -> ystep fire (NSys s q) (LWant w) o (NSys s' (q ++ map (fun n => (false, n)) (asked o)))
| YAccept s b x q s' o : nstep (NMsg (B "NICK") (n_nick s) [x]) s = (s', o) -> ystep fire (NSys s ((b, x) :: q)) LAccept o (NSys s' q)
| YRefuse s b x q text s' o : nstep (NMsg (B "433") (B "srv") [n_nick s; x; text]) s = (s', o) -> ystep fire (NSys s ((b, x) :: q)) (LRefuse text) o (NSys s' q)
| YIgnore s b q : ystep fire (NSys s ((b, n_nick s) :: q)) LIgnore [] (NSys s q)
| YForce s q x s' o : x <> [] -> nstep (NMsg (B "NICK") (n_nick s) [x]) s = (s', o) -> ystep fire (NSys s q) (LForce x) o (NSys s' q)
| YOther s q from new s' o : casemap (n_cm s) from <> casemap (n_cm s) (n_nick s) ->
    nstep (NMsg (B "NICK") from [new]) s = (s', o) -> ystep fire (NSys s q) (LOther from new) o (NSys s' q).

Inductive yruns (fire : bytes) (y : nsys) : list (nlabel * list nout) -> nsys -> Prop :=
| YNil : yruns fire y [] y
| YMore l y1 a o y2 : yruns fire y l y1 -> ystep fire y1 a o y2 -> yruns fire y (l ++ [(a, o)]) y2.

(** The user has just been registered with nickname [n], [w] being wanted. *)
Definition begun (cm : casemapping) (w n : bytes) (has : bool) : nst := Nst cm w true n has [] (Some w) true false.

(** Neither a client asks for nickname [w], nor is it given by the server. *)
Definition apart (cm : casemapping) (w : bytes) (a : nlabel) : Prop :=
  match a with LWant x | LForce x => casemap cm x <> casemap cm w | _ => True end.
