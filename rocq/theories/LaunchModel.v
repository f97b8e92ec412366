(* LaunchModel.v -- which configurations `gt` runs, and as what: bin/src/main.rs 66-92, bin/src/manager.rs 91-128
   (collect_files), 130-152 (collect_configs), 455-489 (run_configs), 810-856 (Config, is_client_config, is_server_config).
   A directory is a tree; a file has a name, a size and what serde_yaml makes of it (None: it cannot be read as a Config).
   Simplified: no symbolic links, and the files do not change and are readable meanwhile; file names are valid UTF-8. *)
From Coq Require Import Strings.String.
From Verif Require Import GoBase FlagsModel.
Local Open Scope N_scope.

(* 810-815: type, and whether there are services *)
Record fconf := mkC { cTyp : option bytes; cServices : bool }.
Inductive node := File (n : bytes) (sz : N) (c : option fconf) | Dir (n : bytes) (l : list node).

(* std::path::Path::extension: after the last dot of the name, None if there is none or only a leading one; r is the name reversed *)
Fixpoint rsplit_dot (acc : bytes) (r : bytes) : option (bytes * bytes) :=
  match r with
  | [] => None
  | b :: r => if b =? 46 then Some (r, acc) else rsplit_dot (b :: acc) r
  end.
Definition extension (n : bytes) : option bytes :=
  match rsplit_dot [] (rev n) with Some ([], _) => None | Some (_, e) => Some e | None => None end.
Definition is_yaml (n : bytes) : bool := match extension n with Some e => bool_decide (e = bs "yaml" \/ e = bs "yml") | None => false end.

(* u8 arithmetic: the release profile does not check for overflow *)
Definition u8_inc (d : N) : N := (d + 1) `mod` 256.
Definition max_size : N := 10 * 1024 * 1024.

(* 91-128, the loop body of read_dir for one entry: the paths below the directory, with the contents *)
Fixpoint collect_entry (max depth : N) (nd : node) : list (list bytes * option fconf) :=
  match nd with
  | File n sz c => if is_yaml n then (if max_size <? sz then [] else [([n], c)]) else []
  | Dir n l =>
      if negb (max =? 0) && (max <? u8_inc depth) then []
      else (fun pc => (n :: pc.1, pc.2)) <$> flat_map (collect_entry max (u8_inc depth)) l
  end.
(* a directory or a file given with -c; a file is taken whatever its name and size *)
Definition collect_files (max : N) (root : node) : list (list bytes * option fconf) :=
  match root with Dir _ l => flat_map (collect_entry max 1) l | File _ _ c => [([], c)] end.

(* 831-856 *)
Inductive kind := KServer | KClient | KConnect.
#[global] Instance kind_dec : EqDecision kind. Proof. solve_decision. Defined.
Definition is_client_config (c : fconf) : option bool :=
  if cServices c then Some true else
  match cTyp c with
  | None => Some false
  | Some t => if decide (t = bs "client") then Some true else if decide (t = bs "server") then Some false
              else if decide (t = bs "connect") then Some false else None
  end.
Definition is_server_config (c : fconf) : option bool :=
  if cServices c then Some false else
  match cTyp c with
  | None => Some false
  | Some t => if decide (t = bs "client") then Some false else if decide (t = bs "server") then Some true
              else if decide (t = bs "connect") then Some false else None
  end.
(* 461-468 *)
Definition file_kind (c : option fconf) : option kind :=
  c ← c; cl ← is_client_config c; if cl : bool then Some KClient else
  sv ← is_server_config c; if sv : bool then Some KServer else Some KConnect.

(* main.rs: gt [-c path] [--depth d] [server|client|connect [-c path]].  A path is here the tree found at it. *)
Inductive command := CNone | CServer (f : option node) | CClient (f : option node) | CConnect (f : option node).
Record cli := mkCli { aCommand : command; aConfig : option node; aDepth : option N }.
(* what is started: a kind, and the file given to it with -c, if any.  The path of a collected file is relative to the root. *)
Inductive conf := Found (p : list bytes) (c : option fconf) | Given (f : option node).
Definition collect_configs (a : cli) (cwd : node) : list (kind + (list bytes * option fconf)) * option (option node) :=
  match aCommand a with
  | CServer f => ([inl KServer], Some f)
  | CClient f => ([inl KClient], Some f)
  | _ => (inr <$> collect_files (default 3 (aDepth a)) (default cwd (aConfig a)), None)
  end.
(* 455-489: the kinds of all are found first; an error stops the manager before anything is started, 535-541.  None: the manager ends *)
Definition with_kind (pc : list bytes * option fconf) : option (kind * conf) := (fun k => (k, Found pc.1 pc.2)) <$> file_kind pc.2.
Definition of_k (k : kind) (l : list (kind * conf)) : list (kind * conf) := filter (fun kc => kc.1 = k) l.
Definition launch (a : cli) (cwd : node) : option (list (kind * conf)) :=
  match collect_configs a cwd with
  | ([], _) => None
  | (cs, g) =>
      l ← mapM (fun c => match c with inl k => Some (k, Given (default None g)) | inr pc => with_kind pc end) cs;
      Some (of_k KServer l ++ of_k KClient l ++ of_k KConnect l)
  end.
