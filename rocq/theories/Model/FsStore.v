(** Model of the log file message store, msgstore/fs.go, for one network and one
    entity (the files of one directory). Times are nanoseconds since year 1 in
    the local time zone; zone transitions are not modelled, so that every day has
    24 hours. I/O errors, context cancellation and the 64 KiB limit of the line
    scanner are not modelled. *)
From Verif.Base Require Import Bytes.
From Verif.Model Require Import Message TimeFmt ZncLog.
From Coq Require Import ZArith.
Open Scope nat_scope.

Definition lf : ascii := "010"%char.
Definition cr : ascii := "013"%char.

(** Contents of the log file of each day (counted from year 1). *)
Definition files := Z -> option bytes.

Definition day_of (t : Z) : Z := (t / ns_per_day)%Z.
Definition day_start (d : Z) : Z := (d * ns_per_day)%Z.

(** bufio.ScanLines. *)
Definition drop_cr (l : bytes) : bytes :=
  match rev l with c :: l' => if aeqb c cr then rev l' else l | [] => l end.
Definition scan_lines (content : bytes) : list bytes :=
  let ls := split_on lf content in
  map drop_cr (match last ls [] with [] => removelast ls | _ => ls end).

(** fs.go:22-25. *)
Definition max_tries : nat := 100.

(** An identifier: date and offset (fs.go:50-53). *)
Definition fs_id := (Z * Z)%type.

(** fs.go:128-137 (LastMsgID). *)
Definition fs_last_msg_id (fs : files) (t : Z) : fs_id :=
  match fs (day_of t) with
  | None => (day_of t, -1)%Z
  | Some c => (day_of t, Z.of_nat (length c) - 1)%Z
  end.

(** fs.go:139-205 (Append), for a message whose log line is [line] (not empty) and
    whose time is [t]. The cache of open files does not change what is written. *)
Definition fs_append (fs : files) (t : Z) (line : bytes) : files * fs_id :=
  let d := day_of t in
  let old := match fs d with Some c => c | None => [] end in
  (fun x => if Z.eqb x d then Some (old ++ line ++ [lf]) else fs x,
   (d, Z.of_nat (length old))).

Section Store.
  Context {M : Type}.
  (** parseMessage, fs.go:220-222: a line gives an error, is skipped, or gives a
      message with its time of day. *)
  Variable parse : bytes -> option (option (M * Z)).

  (** fs.go:246-263: the loop over lines, filling the ring. *)
  Fixpoint scan_before (d ref end_ : Z) (limit : nat) (sel : M -> bool) (ls : list bytes)
      (ring : list (option M)) (cur : nat) : option (list (option M) * nat) :=
    match ls with
    | [] => Some (ring, cur)
    | l :: ls' =>
        match parse l with
        | None => None
        | Some None => scan_before d ref end_ limit sel ls' ring cur
        | Some (Some (m, tod)) =>
            let t := (day_start d + tod)%Z in
            if negb (Z.ltb end_ t) then scan_before d ref end_ limit sel ls' ring cur
            else if negb (Z.ltb t ref) then Some (ring, cur)
            else if negb (sel m) then scan_before d ref end_ limit sel ls' ring cur
            else scan_before d ref end_ limit sel ls' (updnth (cur mod limit) (Some m) ring) (S cur)
        end
    end.

  (** fs.go:268-280: reading the ring. *)
  Definition read_ring (limit : nat) (ring : list (option M)) (cur : nat) : list (option M) :=
    let n := if Nat.ltb cur limit then cur else limit in
    let start := (cur - n + limit) mod limit in
    if Nat.leb (start + n) limit then firstn n (skipn start ring)
    else skipn start ring ++ firstn (n - (limit - start)) ring.

  (** fs.go:224-281 (parseMessagesBefore). *)
  Definition parse_before (fs : files) (ref end_ : Z) (limit : nat) (after_offset : Z) (sel : M -> bool)
      : option (list (option M)) :=
    let d := day_of ref in
    match fs d with
    | None => Some []
    | Some content =>
        let ls := if (0 <=? after_offset)%Z
                  then tl (scan_lines (skipn (Z.to_nat after_offset) content))
                  else scan_lines content in
        match scan_before d ref end_ limit sel ls (repeat None limit) 0 with
        | None => None
        | Some (ring, cur) => Some (read_ring limit ring cur)
        end
    end.

  (** fs.go:296-311: the loop over lines. *)
  Fixpoint scan_after (d ref end_ : Z) (limit : nat) (sel : M -> bool) (ls : list bytes) (acc : list M) : option (list M) :=
    match ls with
    | [] => Some acc
    | l :: ls' =>
        if Nat.ltb (length acc) limit then
          match parse l with
          | None => None
          | Some None => scan_after d ref end_ limit sel ls' acc
          | Some (Some (m, tod)) =>
              let t := (day_start d + tod)%Z in
              if negb (Z.ltb ref t) then scan_after d ref end_ limit sel ls' acc
              else if negb (Z.ltb t end_) then Some acc
              else if negb (sel m) then scan_after d ref end_ limit sel ls' acc
              else scan_after d ref end_ limit sel ls' (acc ++ [m])
          end
        else Some acc
    end.

  (** fs.go:283-316 (parseMessagesAfter). *)
  Definition parse_after (fs : files) (ref end_ : Z) (limit : nat) (sel : M -> bool) : option (list M) :=
    let d := day_of ref in
    match fs d with
    | None => Some []
    | Some content => scan_after d ref end_ limit sel (scan_lines content) []
    end.

  (** fs.go:318-351 (getBeforeTime). [acc] is messages[remaining:]. The fuel is
      the number of days from [end_] to [start], which bounds the iterations. *)
  Fixpoint before_loop (fuel : nat) (fs : files) (start end_ : Z) (remaining : nat) (tries : nat)
      (sel : M -> bool) (acc : list (option M)) : option (list (option M)) :=
    match fuel with
    | O => Some acc
    | S fuel' =>
        if Nat.ltb 0 remaining && Nat.ltb tries max_tries && Z.ltb end_ start then
          match parse_before fs start end_ remaining (-1) sel with
          | None => None
          | Some buf =>
              before_loop fuel' fs (day_start (day_of start) - 1)%Z end_ (remaining - length buf)
                (match buf with [] => S tries | _ => 0 end) sel (buf ++ acc)
          end
        else Some acc
    end.
  Definition get_before_time (fs : files) (start end_ : Z) (limit : nat) (sel : M -> bool) : option (list (option M)) :=
    before_loop (Z.to_nat (day_of start - day_of end_ + 1)) fs start end_ limit 0 sel [].

  (** fs.go:357-389 (getAfterTime). *)
  Fixpoint after_loop (fuel : nat) (fs : files) (start end_ : Z) (remaining : nat) (tries : nat)
      (sel : M -> bool) (acc : list M) : option (list M) :=
    match fuel with
    | O => Some acc
    | S fuel' =>
        if Nat.ltb 0 remaining && Nat.ltb tries max_tries && Z.ltb start end_ then
          match parse_after fs start end_ remaining sel with
          | None => None
          | Some buf =>
              after_loop fuel' fs (day_start (day_of start + 1)) end_ (remaining - length buf)
                (match buf with [] => S tries | _ => 0 end) sel (acc ++ buf)
          end
        else Some acc
    end.
  Definition get_after_time (fs : files) (start end_ : Z) (limit : nat) (sel : M -> bool) : option (list M) :=
    after_loop (Z.to_nat (day_of end_ - day_of start + 1)) fs start end_ limit 0 sel [].

  (** fs.go:395-443 (LoadLatestID) at time [now]; [id] belongs to this network and
      entity. The empty ID is the zero time with offset 0. *)
  Fixpoint latest_loop (fuel : nat) (fs : files) (t : Z) (id : fs_id) (remaining : nat) (tries : nat)
      (acc : list (option M)) : option (list (option M)) :=
    match fuel with
    | O => Some acc
    | S fuel' =>
        if Nat.ltb 0 remaining && Nat.ltb tries max_tries && negb (Z.ltb (day_of t) (fst id)) then
          let offset := if (0 <=? snd id)%Z && Z.eqb (day_of t) (fst id) then snd id else (-1)%Z in
          match parse_before fs t 0 remaining offset (fun _ => true) with
          | None => None
          | Some buf =>
              latest_loop fuel' fs (day_start (day_of t) - 1)%Z id (remaining - length buf)
                (match buf with [] => S tries | _ => 0 end) (buf ++ acc)
          end
        else Some acc
    end.
  Definition load_latest (fs : files) (now : Z) (id : fs_id) (limit : nat) : option (list (option M)) :=
    latest_loop (Z.to_nat (day_of now - fst id + 1)) fs now id limit 0 [].
End Store.

(** fs.go:220-222 (parseMessage) for the log of [entity]; reader.go:31-37 gives the
    date of the reference time to the time of day. *)
Definition fs_parse (own entity : bytes) (events : bool) (line : bytes) : option (option (log_msg * Z)) :=
  match unmarshal_line own entity events line with
  | None => None
  | Some None => Some None
  | Some (Some (m, (h, mi, s))) => Some (Some (m, ((h * 60 + mi) * 60 + s) * 1000000000))%Z
  end.

(** fs.go:139-154 and writer.go:13-20: the line written for a PRIVMSG at time [t]. *)
Definition chat_line (p : prefix) (target text : bytes) (t : Z) : bytes :=
  let sec := (t mod ns_per_day / 1000000000)%Z in
  marshal_line p (B "PRIVMSG") [target; text] (sec / 3600)%Z (sec / 60 mod 60)%Z (sec mod 60)%Z.
