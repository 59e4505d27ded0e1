(** Specification of what clients know about topics and modes. *)
From Verif.Base Require Import Bytes.
From Verif.Model Require Import CaseMap Membership Message Modes ChanView.
From Coq Require Import Permutation.

(** Two snapshots of the modes of a channel say the same. *)
Definition same_modes (a b : list (ascii * bytes)) : Prop := forall c, al_get a c = al_get b c.

(** What a client knows about a channel: whether it is in it, its topic, who set it and when, its
    modes, when it was made; and whether it has asked for the modes. *)
Record cview := CView {
  v_on : bool;
  v_topic : bytes;
  v_who : option bytes;
  v_time : option bytes;
  v_modes : option (list (ascii * bytes));
  v_created : option bytes;
  v_asked : bool
}.
Definition away : cview := CView false [] None None None None false.

(** What a channel is on the server: its topic, who set it, when (as far as the server says so), its
    modes and when it was made; and how far the server has got in telling: the topic, its setter, the
    members. *)
Record srv := Srv {
  s_topic : bytes;
  s_who : option prefix;
  s_time : option N;
  s_modes : list (ascii * bytes);
  s_created : bytes;
  s_told : bool;
  s_told_who : bool;
  s_named : bool
}.

(** The prefixes servers use. *)
Definition wf_prefix (p : prefix) : Prop :=
  ~ In "@"%char (p_name p) /\ ~ In "!"%char (p_name p) /\ ~ In "@"%char (p_user p).

Section Spec.
  Variable cm : bytes -> bytes.
  Variable me server chantypes : bytes.
  Variable avail : list membership.
  Variable table : list (ascii * mode_type).
  Variable order : list (ascii * bytes) -> list (ascii * bytes).

  Local Notation apply := (mapply avail table).

  (** What a client makes of a message, for the channel [k]; modes are read as C63 has it. *)
  Definition mine (m : message) : bool :=
    match m_prefix m with Some p => beqb (cm (p_name p)) (cm me) | None => false end.
  Definition look (k : bytes) (v : cview) (m : message) : cview :=
    let is (c : bytes) := beqb (m_command m) c in
    match m_params m with
    | a :: r =>
        if is (B "JOIN") then if mine m && beqb (cm a) k then CView true [] None None None None false else v
        else if is (B "PART") then if mine m && beqb (cm a) k then away else v
        else if is (B "KICK") then
          if beqb (cm a) k && match r with n :: _ => beqb (cm n) (cm me) | [] => false end then away else v
        else if negb (v_on v) then v
        else if is (B "TOPIC") then
          if beqb (cm a) k then
            match r with
            | t :: _ => CView true t (option_map format_prefix (m_prefix m)) None (v_modes v) (v_created v) (v_asked v)
            | [] => CView true [] (v_who v) (v_time v) (v_modes v) (v_created v) (v_asked v)
            end
          else v
        else if is (B "MODE") then
          if beqb (cm a) k then
            CView true (v_topic v) (v_who v) (v_time v)
              (match v_modes v, r with Some md, s :: args => fst (apply (Some md) s args) | o, _ => o end)
              (v_created v) (v_asked v)
          else v
        else match r with
        | c :: r =>
            if negb (beqb (cm c) k) then v
            else if is (B "331") then CView true [] (v_who v) (v_time v) (v_modes v) (v_created v) (v_asked v)
            else match r with
            | x :: r =>
                if is (B "332") then CView true x (v_who v) (v_time v) (v_modes v) (v_created v) (v_asked v)
                else if is (B "333") then CView true (v_topic v) (Some x) (hd_error r) (v_modes v) (v_created v) (v_asked v)
                else if is (B "324") then CView true (v_topic v) (v_who v) (v_time v) (fst (apply (Some []) x r)) (v_created v) (v_asked v)
                else if is (B "329") then CView true (v_topic v) (v_who v) (v_time v) (v_modes v) (Some x) (v_asked v)
                else v
            | [] => v
            end
        | [] => v
        end
    | [] => v
    end.

  (** The lines of a server about the channel [k], and what they tell has become of it. *)
  Inductive says (k : bytes) : option srv -> message -> option srv -> Prop :=
  | y_join tags p c rest t w tm md cr :
      cm (p_name p) = cm me -> cm c = k -> ~ In ","%char c ->
      (t = [] -> w = None) -> (forall q, w = Some q -> wf_prefix q) -> (w = None <-> tm = None) -> cr <> [] ->
      says k None (Message tags (Some p) (B "JOIN") (c :: rest)) (Some (Srv t w tm md cr false false false))
  | y_part tags p c rest h :
      cm (p_name p) = cm me -> cm c = k -> ~ In ","%char c ->
      says k (Some h) (Message tags (Some p) (B "PART") (c :: rest)) None
  | y_kick tags p c n rest h :
      cm n = cm me -> cm c = k ->
      says k (Some h) (Message tags p (B "KICK") (c :: n :: rest)) None
  | y_topic_is tags p c h :
      cm c = k -> s_topic h <> [] ->
      says k (Some h) (Message tags p (B "332") [me; c; s_topic h])
        (Some (Srv (s_topic h) (s_who h) (s_time h) (s_modes h) (s_created h) true (s_told_who h) (s_named h)))
  | y_no_topic tags p c text h :
      cm c = k -> s_topic h = [] ->
      says k (Some h) (Message tags p (B "331") [me; c; text])
        (Some (Srv (s_topic h) (s_who h) (s_time h) (s_modes h) (s_created h) true (s_told_who h) (s_named h)))
  | y_setter tags p c w t h :
      cm c = k -> s_who h = Some w -> s_time h = Some t ->
      says k (Some h) (Message tags p (B "333") [me; c; format_prefix w; dec t])
        (Some (Srv (s_topic h) (s_who h) (s_time h) (s_modes h) (s_created h) (s_told h) true (s_named h)))
  (* who set it since, said again *)
  | y_setter_again tags p c w t h :
      cm c = k -> s_who h = Some w -> s_time h = None -> s_told_who h = true -> wf_prefix w ->
      says k (Some h) (Message tags p (B "333") [me; c; format_prefix w; dec t]) (Some h)
  | y_topic tags q c t h :
      cm c = k ->
      says k (Some h) (Message tags (Some q) (B "TOPIC") [c; t])
        (Some (Srv t (Some q) None (s_modes h) (s_created h) true true (s_named h)))
  | y_clear tags q c h :
      cm c = k ->
      says k (Some h) (Message tags (Some q) (B "TOPIC") [c])
        (Some (Srv [] (s_who h) (s_time h) (s_modes h) (s_created h) true (s_told_who h) (s_named h)))
  | y_mode tags q c s args h md :
      cm c = k -> is_channel chantypes c = true -> apply (Some (s_modes h)) s args = (Some md, true) ->
      says k (Some h) (Message tags q (B "MODE") (c :: s :: args))
        (Some (Srv (s_topic h) (s_who h) (s_time h) md (s_created h) (s_told h) (s_told_who h) (s_named h)))
  | y_modes tags p c s args h md :
      cm c = k -> apply (Some []) s args = (Some md, true) -> same_modes md (s_modes h) ->
      says k (Some h) (Message tags p (B "324") (me :: c :: s :: args)) (Some h)
  | y_created tags p c h :
      cm c = k ->
      says k (Some h) (Message tags p (B "329") [me; c; s_created h]) (Some h)
  | y_names_end tags p c rest h :
      cm c = k -> s_told h = true \/ s_topic h = [] -> s_told_who h = true \/ s_who h = None ->
      says k (Some h) (Message tags p (B "366") (me :: c :: rest))
        (Some (Srv (s_topic h) (s_who h) (s_time h) (s_modes h) (s_created h) (s_told h) (s_told_who h) true))
  (* other people come and go *)
  | y_others tags p c rest h cmd :
      cm (p_name p) <> cm me -> cm c = k -> ~ In ","%char c -> cmd = B "JOIN" \/ cmd = B "PART" ->
      says k (Some h) (Message tags (Some p) cmd (c :: rest)) (Some h)
  (* what a client asked about a channel the user is not in *)
  | y_outside tags p c rest cmd :
      cm c = k -> In cmd [B "331"; B "332"; B "333"; B "324"; B "329"; B "366"] ->
      says k None (Message tags p cmd (me :: c :: rest)) None.

  (** What is sent to a client. *)
  Definition received (i : N) (outs : list (N * message)) : list message :=
    map snd (filter (fun o => N.eqb (fst o) i) outs).
  Definition views := N -> bytes -> cview.
  Definition deliver (v : views) (outs : list (N * message)) : views :=
    fun i k => fold_left (look k) (received i outs) (v i k).

  (** A client that comes knows nothing; one that asks for modes remembers it. *)
  Definition before (v : views) (e : vev) : views :=
    fun i k =>
      match e with
      | VConnect id => if N.eqb i id then away else v i k
      | VMode id name =>
          if N.eqb i id && beqb k (cm name) && v_on (v i k)
          then let x := v i k in CView true (v_topic x) (v_who x) (v_time x) (v_modes x) (v_created x) true
          else v i k
      | _ => v i k
      end.

  (** The bouncer, the server, the lines on the way from the server and to it, and what the clients
      know. *)
  Record sys := Sys {
    y_b : vst;
    y_srv : bytes -> option srv;
    y_down : list message;
    y_up : list message;
    y_view : views
  }.
  Definition upd (w : bytes -> option srv) (k : bytes) (h : option srv) : bytes -> option srv :=
    fun j => if beqb j k then h else w j.

  Local Notation from_srv := (on_srv cm me server chantypes avail table).
  Local Notation from_client := (on_ev cm me server order).

  (** Clients have numbers of their own. *)
  Definition fresh (s : vst) (e : vev) : Prop :=
    match e with VConnect id => ~ In id (x_clients s) | _ => True end.

  (** The runs in which what clients do meets a condition. *)
  Inductive reach (ok : vst -> vev -> Prop) : sys -> Prop :=
  | r_start saved : reach ok (Sys (VSt [] saved [] false) (fun _ => None) [] [] (fun _ _ => away))
  (* the server tells of a channel *)
  | r_speak b w d u v k m h :
      reach ok (Sys b w d u v) -> says k (w k) m h -> reach ok (Sys b (upd w k h) (d ++ [m]) u v)
  (* it answers a question for the modes of a channel the user is in *)
  | r_answer b w d c u v h m :
      reach ok (Sys b w d (msg (B "MODE") [c] :: u) v) -> w (cm c) = Some h ->
      says (cm c) (Some h) m (Some h) -> m_command m = B "324" ->
      reach ok (Sys b w (d ++ [m]) u v)
  (* what it does about anything else shows in what it tells *)
  | r_drop b w d x u v :
      reach ok (Sys b w d (x :: u) v) -> (forall c, x = msg (B "MODE") [c] -> w (cm c) = None) ->
      reach ok (Sys b w d u v)
  | r_deliver b w m d u v origin now b' outs ups :
      reach ok (Sys b w (m :: d) u v) -> from_srv b origin now m = (b', outs, ups) ->
      reach ok (Sys b' w d (u ++ ups) (deliver v outs))
  | r_client b w d u v e b' outs ups :
      reach ok (Sys b w d u v) -> ok b e -> fresh b e -> from_client b e = (b', outs, ups) ->
      reach ok (Sys b' w d (u ++ ups) (deliver (before v e) outs))
  | r_again b w d u v :
      reach ok (Sys b w d u v) -> reach ok (Sys (reconnect b) (fun _ => None) [] [] v).

  (** Only saved channels are detached. *)
  Definition known_detach (s : vst) (e : vev) : Prop :=
    match e with VDetach name => x_saved s (cm name) <> None | _ => True end.
End Spec.
