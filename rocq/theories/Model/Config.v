(** pkg/spfcli/config.go and clicontext.go: where the configuration is, and the
    client made from it. *)
From Coq Require Import NArith List Bool String.
From stdpp Require Import base list.
From Verif.Model Require Import Bytes KindEncoder Strings Query Cli.

(** The Go library path/filepath on Unix, which the repository uses but does not
    contain: Clean, written from knowledge of go1.16. [out] is the buffer from its
    last byte on, [dotdot] the length before which nothing is taken back. *)
Definition is_separator (b : byte) : bool := Byte.eqb b Byte.x2f.
Definition is_dot (b : byte) : bool := Byte.eqb b Byte.x2e.
(** The end of the path or a separator is next. *)
Definition part_ends (path : bytes) : bool := match path with [] => true | b :: _ => is_separator b end.
(** The loop [for out.w > dotdot && !os.IsPathSeparator(out.index(out.w)) { out.w-- }];
    [last] is the byte taken back last. *)
Fixpoint take_back (dotdot : nat) (last : byte) (out : bytes) : bytes :=
  match out with
  | [] => []
  | b :: out' => if Nat.ltb dotdot (length out) && negb (is_separator last) then take_back dotdot b out' else out
  end.
(** The loop [for ; r < n && !os.IsPathSeparator(path[r]); r++ { out.append(path[r]) }]. *)
Fixpoint copy_part (path out : bytes) : bytes * bytes :=
  match path with
  | [] => ([], out)
  | b :: path' => if is_separator b then (path, out) else copy_part path' (b :: out)
  end.
(** The steps for a part that is two dots, and for any other part. *)
Definition step_up (rooted : bool) (dotdot : nat) (out : bytes) : nat * bytes :=
  if Nat.ltb dotdot (length out)
  then (dotdot, match out with b :: out' => take_back dotdot b out' | [] => [] end)
  else if rooted then (dotdot, out)
  else let out1 := match out with [] => out | _ => Byte.x2f :: out end in
       let out2 := Byte.x2e :: Byte.x2e :: out1 in
       (length out2, out2).
Definition before_part (rooted : bool) (out : bytes) : bytes :=
  if Nat.eqb (length out) (if rooted then 1 else 0) then out else Byte.x2f :: out.
Fixpoint clean_loop (fuel : nat) (rooted : bool) (dotdot : nat) (path out : bytes) : option bytes :=
  match fuel with
  | O => None
  | S f =>
      match path with
      | [] => Some out
      | b :: path1 =>
          if is_separator b then clean_loop f rooted dotdot path1 out
          else if is_dot b && part_ends path1 then clean_loop f rooted dotdot path1 out
          else if is_dot b && match path1 with c :: path2 => is_dot c && part_ends path2 | [] => false end
          then let '(dotdot', out') := step_up rooted dotdot out in clean_loop f rooted dotdot' (tail path1) out'
          else let '(path', out') := copy_part path (before_part rooted out) in clean_loop f rooted dotdot path' out'
      end
  end.
Definition clean (path : bytes) : option bytes :=
  match path with
  | [] => Some (str ".")
  | b :: path1 =>
      let '(rooted, rest, out) := if is_separator b then (true, path1, [Byte.x2f]) else (false, path, []) in
      match clean_loop (S (length path)) rooted (length out) rest out with
      | Some [] => Some (str ".")
      | Some out' => Some (rev out')
      | None => None
      end
  end.
(** Join of two elements, the second of which is not empty. *)
Definition join_path (dir name : bytes) : option bytes :=
  match dir with [] => clean name | _ => clean (dir ++ str "/" ++ name) end.

(** What the process finds when it looks: the variable SPFCLI_CONFIG_DIR, the home
    directory, the files, and the endpoints that http.New accepts. yaml.Unmarshal
    gives the value of tendermintRPC, empty if there is none. Each gives an error
    or a value. *)
Record surroundings := {
  su_variable : option bytes;
  su_home : goerr + bytes;
  su_file : bytes -> goerr + bytes;
  su_yaml : bytes -> goerr + bytes;
  su_connect : bytes -> goerr + unit
}.
Definition found {A} (r : goerr + A) : res A := match r with inl e => Fail e | inr a => Ok a end.
Definition joined (dir name : bytes) : res bytes := match join_path dir name with Some p => Ok p | None => OutOfFuel end.

(** config.go:30-63 GetConfig and 23-28 Validate: the endpoint. *)
Definition get_config (su : surroundings) : res bytes :=
  res_bind (match su_variable su with
            | Some path => Ok path
            | None => res_bind (found (su_home su)) (fun home => joined home (str ".spfcli_config"))
            end) (fun path =>
  res_bind (joined path (str "config.yaml")) (fun config_path =>
  res_bind (found (su_file su config_path)) (fun text =>
  res_bind (found (su_yaml su text)) (fun endpoint =>
  match endpoint with [] => Fail EAnon | _ => Ok endpoint end)))).

(** clicontext.go:30-44 init and 59-76 failedClient; client.go:18-24 NewRPC. *)
Inductive cli_client := Connected (endpoint : bytes) | Failed (e : goerr).
Definition init_client (su : surroundings) : res cli_client :=
  match get_config su with
  | Ok endpoint => match su_connect su endpoint with inr _ => Ok (Connected endpoint) | inl e => Ok (Failed e) end
  | Fail e => Ok (Failed e)
  | Panic => Panic
  | OutOfFuel => OutOfFuel
  end.
(** clicontext.go:46-49 Client: sync.Once, so a client is made on first use only. *)
Definition context_client (su : surroundings) (c : option cli_client) : res cli_client * option cli_client :=
  match c with
  | Some k => (Ok k, c)
  | None => match init_client su with Ok k => (Ok k, Some k) | r => (r, None) end
  end.

(** The commands of one context: get.go:7-25 and resources.go:7-25 with the client
    of the context. [network] is what answers at an endpoint. *)
Section Commands.
  Context {Obj : Type} (network : bytes -> bytes -> res (reply Obj)).
  Definition ask_client (k : cli_client) (path : bytes) : res (reply Obj) :=
    match k with Connected endpoint => network endpoint path | Failed e => Fail e end.
  Inductive cli_command := DoGet (args : list bytes) | DoResources (args : list bytes).
  Definition run_command (su : surroundings) (c : option cli_client) (cmd : cli_command) : res (reply Obj) * option cli_client :=
    match cmd with
    | DoGet args =>
        if minimum_args 2 args then
          match context_client su c with
          | (Ok k, c') => (get_command (ask_client k) args, c')
          | (Fail e, c') => (Fail e, c') | (Panic, c') => (Panic, c') | (OutOfFuel, c') => (OutOfFuel, c')
          end
        else (Fail EAnon, c)
    | DoResources args =>
        if exact_args 0 args then
          match context_client su c with
          | (Ok k, c') => (resources_command (ask_client k) args, c')
          | (Fail e, c') => (Fail e, c') | (Panic, c') => (Panic, c') | (OutOfFuel, c') => (OutOfFuel, c')
          end
        else (Fail EAnon, c)
    end.
  Fixpoint run_commands (l : list (surroundings * cli_command)) (c : option cli_client) : list (res (reply Obj)) * option cli_client :=
    match l with
    | [] => ([], c)
    | (su, cmd) :: l => let '(r, c1) := run_command su c cmd in let '(rs, c2) := run_commands l c1 in (r :: rs, c2)
    end.
End Commands.
