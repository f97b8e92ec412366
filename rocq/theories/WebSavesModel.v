(* WebSavesModel.v -- several changes made on the web pages before a restart: what the account page shows and sends (client/web/api/api.go 79-99 and server/web/api/api.go 78-98
   [GetUserInfo], web/front/src/layouts/components/Header/components/InfoForm.vue 47-75), the two handlers that save (WebConfModel) one after the other and interleaved.
   Left out: two handlers that are both between emptying the file and writing it (what they write may then be mixed). *)
From Coq Require Import Strings.String.
From Verif Require Import GoBase FlagsModel WebConfModel.
Local Open Scope N_scope.

(* the button "save" of the settings page, "change" of the account page *)
Inductive save := Settings (req : bytes -> option val) | Account (user password : bytes) (pprof : bool).
(* client/web/api/api.go 79-99: GetMergedConfig is called and its result is replaced by the running values *)
Definition str_of (v : val) : bytes := match v with One (AStr s) => s | _ => [] end.
Definition bool_of (v : val) : bool := match v with One (ABool b) => b | _ => false end.
Definition running_value (sch : list odecl) (running : odecl -> val) (n : bytes) : val := match find_opt sch n with Some o => running o | None => Many [] end.
Definition shown (sch : list odecl) (running : odecl -> val) : bytes * bytes * bool :=
  (str_of (running_value sch running (bs "admin")), str_of (running_value sch running (bs "password")), bool_of (running_value sch running (bs "pprof"))).
(* InfoForm.vue: onMounted fills the form, the user edits some of the fields, "change" sends all three *)
Definition account_page (sch : list odecl) (running : odecl -> val) (user password : option bytes) (pprof : option bool) : save :=
  let '(u, p, b) := shown sch running in Account (default u user) (default p password) (default b pprof).

(* the configuration that a handler builds from what it reads; where it writes it *)
Definition built (sch : list odecl) (hidden : list bytes) (disk : bytes -> file) (running : odecl -> val) (s : save) : odecl -> val :=
  match s with Settings req => save_config sch hidden disk running req | Account u p b => user_config sch disk running u p b end.
Definition states (sch : list odecl) (hidden : list bytes) (dpath : bytes) (disk : bytes -> file) (running : odecl -> val) (s : save) : list (bytes -> file) :=
  match s with Settings req => web_save sch hidden dpath disk running req | Account u p b => web_change_user sch dpath disk running u p b end.
(* one after the other *)
Definition after (sch : list odecl) (hidden : list bytes) (dpath : bytes) (running : odecl -> val) (disk : bytes -> file) (s : save) : bytes -> file :=
  default disk (last (states sch hidden dpath disk running s)).
Definition after_all sch hidden dpath running disk (l : list save) : bytes -> file := foldl (after sch hidden dpath running) disk l.

(* interleaved: a handler has read and built; has emptied the file *)
Inductive phase := Built (cfg : odecl -> val) | Emptied (cfg : odecl -> val).
Record hworld := mkH { hDisk : bytes -> file; hReqs : gmap N phase }.
Inductive hev := HBegin (i : N) (s : save) | HCreate (i : N) | HWrite (i : N).
Definition hstep (sch : list odecl) (hidden : list bytes) (dpath : bytes) (running : odecl -> val) (w : hworld) (e : hev) : option hworld :=
  match e with
  | HBegin i s => match hReqs w !! i with None => Some (mkH (hDisk w) (<[i := Built (separate (built sch hidden (hDisk w) running s))]> (hReqs w))) | _ => None end
  | HCreate i => match hReqs w !! i with
                 | Some (Built c) => Some (mkH (upd (hDisk w) (save_path sch dpath c) (Broken (fun _ => None))) (<[i := Emptied c]> (hReqs w)))
                 | _ => None
                 end
  | HWrite i => match hReqs w !! i with
                | Some (Emptied c) => Some (mkH (upd (hDisk w) (save_path sch dpath c) (Fine (encode sch c))) (delete i (hReqs w)))
                | _ => None
                end
  end.
Fixpoint hrun sch hidden dpath running (w : hworld) (l : list hev) : option hworld :=
  match l with [] => Some w | e :: l => w' ← hstep sch hidden dpath running w e; hrun sch hidden dpath running w' l end.
