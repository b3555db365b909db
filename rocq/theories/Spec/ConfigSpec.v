(** What a path names, and what the commands of one client ask. *)
From Coq Require Import NArith List Bool String.
From stdpp Require Import base list.
From Verif.Model Require Import Bytes Query Config.
From Verif.Spec Require Import QuerySpec.

(** Following a path part by part, from the root or from where one is: [here] is
    where one has got to, last name first. *)
Definition follow (rooted : bool) (here : list bytes) (part : bytes) : list bytes :=
  if decide (part = [] \/ part = str ".") then here
  else if decide (part = str "..") then
    match here with
    | [] => if rooted then [] else [part]
    | last :: up => if decide (last = str "..") then part :: here else up
    end
  else part :: here.
(** [parts] separated by slashes are the path [path]. *)
Definition has_parts (path : bytes) (parts : list bytes) : Prop :=
  parts <> [] /\ Forall no_slash parts /\ path = path_of parts.
Definition from_root (path : bytes) : bool := match path with b :: _ => bool_decide (b = slash) | [] => false end.
(** The names on the way, written down. *)
Definition place (rooted : bool) (parts : list bytes) : bytes :=
  match rooted, rev (foldl (follow rooted) [] parts) with
  | true, names => str "/" ++ path_of names
  | false, [] => str "."
  | false, names => path_of names
  end.
(** The file with these names under the directory. *)
Definition under (dir : bytes) (names : list bytes) (file : bytes) : Prop :=
  exists parts, has_parts dir parts /\ file = place (from_root dir) (parts ++ names).

(** The file to read, or why it is not known. *)
Definition config_file (su : surroundings) (file : goerr + bytes) : Prop :=
  match su_variable su, su_home su, file with
  | Some dir, _, inr f => under dir [str "config.yaml"] f
  | None, inr home, inr f => under home [str ".spfcli_config"; str "config.yaml"] f
  | None, inl e, inl e' => e = e'
  | _, _, _ => False
  end.
(** The node that these surroundings name, or the error that keeps one from it. *)
Definition names_node (su : surroundings) (endpoint : bytes) : Prop :=
  exists file text, config_file su (inr file) /\ su_file su file = inr text /\ su_yaml su text = inr endpoint
    /\ endpoint <> [] /\ su_connect su endpoint = inr tt.
Definition names_none (su : surroundings) (e : goerr) : Prop :=
  config_file su (inl e)
  \/ exists file, config_file su (inr file)
     /\ (su_file su file = inl e
         \/ exists text, su_file su file = inr text
            /\ (su_yaml su text = inl e
                \/ su_yaml su text = inr [] /\ e = EAnon
                \/ exists endpoint, su_yaml su text = inr endpoint /\ endpoint <> [] /\ su_connect su endpoint = inl e)).

(** What a command asks a node for: nothing if its arguments are not accepted. *)
Definition accepted (cmd : cli_command) : bool :=
  match cmd with DoGet args => Nat.leb 2 (length args) | DoResources args => Nat.eqb (length args) 0 end.
Definition asks_for (cmd : cli_command) : option bytes :=
  match cmd with
  | DoGet (g :: k :: id :: _) => Some (path_of [str "get"; g; k; id])
  | DoResources [] => Some (str "api_resources")
  | _ => None
  end.
