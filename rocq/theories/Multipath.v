(** * The multipath command (pykickstart/commands/multipath.py)

    The translator leaves multipath.py out because its data objects contain others; this is the class by hand.
    It can be given to the handlers as [rest "FC6_MultiPath"].  (F24_MultiPath and F34_MultiPath take everything
    from DeprecatedCommand and RemovedCommand.) *)

From Verif Require Export Shlex ArgParse ArgDecl Handler ClassModel.
From Verif Require Import Value.
Local Open Scope string_scope.
Local Open Scope list_scope.

(** multipath.py:76-83 (_getParser). *)
Definition mp_table : list tableop :=
  [OpAdd (mkDecl ["--name"] "name" KStore NOne VNone VNone TStr None true false);
   OpAdd (mkDecl ["--device"] "device" KStore NOne VNone VNone TStr None true false);
   OpAdd (mkDecl ["--rule"] "rule" KStore NOne VNone VNone TStr None true false)].

(** multipath.py:46-49 (FC6_MultiPathData.__init__), with one path added.  The attribute [paths] is the list of the devices and rules
    of the FC6_MpPathData objects in it: their other attributes are used for nothing but the text of a message. *)
Definition mp_new (k n dev rule : string) : data := mkData k [("lineno", VInt 0); ("name", VStr n); ("paths", VPairs [(dev, rule)])].
(** multipath.py:32-37 and 87-90: the FC6_MpPathData object of a line. *)
Definition mp_path (ln : option N) (n mpdev dev rule : string) : data :=
  mkData "FC6_MpPathData" [("lineno", match ln with Some l => VInt (Z.of_N l) | None => VNone end); ("mpdev", VStr mpdev); ("device", VStr dev); ("rule", VStr rule); ("name", VStr n)].

(** multipath.py:90: dd.name.split('/')[-1]. *)
Definition last_part (n : string) : string := last (split_char "/" n) "".

(** multipath.py:92-100: the loop over self.mpaths.  A FC6_MpPathData object has no attribute [paths]. *)
Fixpoint mp_scan (ln : option N) (dev mpdev : string) (l : list data) (x : nat) (parent : option nat) : res (option nat) :=
  match l with
  | [] => Ok parent
  | m :: r =>
      match assoc "paths" (d_attrs m) with
      | Some (VPairs ps) =>
          if mem dev (map fst ps) then Err (KSParseError ln "Device '%(device)s' is already used in multipath '%(multipathdev)s'")
          else mp_scan ln dev mpdev r (S x) (match assoc "name" (d_attrs m) with
                                             | Some (VStr n) => if String.eqb n mpdev then Some x else parent
                                             | _ => parent
                                             end)
      | _ => Err AttributeError
      end
  end.
(** multipath.py:107-108: mpath.paths.append(dd) for the object at [x]. *)
Fixpoint mp_add (x : nat) (p : string * string) (l : list data) : list data :=
  match l, x with
  | [], _ => []
  | m :: r, 0 => mkData (d_class m) (put "paths" (VPairs (match assoc "paths" (d_attrs m) with Some (VPairs ps) => ps ++ [p] | _ => [p] end)) (d_attrs m)) :: r
  | m :: r, S x => m :: mp_add x p r
  end.

(** multipath.py:85-109 (parse). *)
Definition mp_parse (v : view) (a : attrs) (d : list data) (args : list string) : attrs * list data * res (option data) :=
  let ln := match get "lineno" a with VInt z => Some (Z.to_N z) | _ => None end in
  match parse_args (build mp_table) ln args with
  | Err e => (a, d, Err e)
  | Ok ns =>
      match get "name" ns, get "device" ns, get "rule" ns with
      | VStr n, VStr dev, VStr rule =>
          match mp_scan ln dev (last_part n) d 0 None with
          | Err e => (a, d, Err e)
          | Ok (Some (S x)) => (a, mp_add (S x) (dev, rule) d, Ok (Some (mp_path ln n (last_part n) dev rule)))
          | Ok _ =>
              match assoc "MultiPathData" (v_data v) with
              | Some k => (a, d, Ok (Some (mp_new k n dev rule)))
              | None => (a, d, Err AttributeError)
              end
          end
      | _, _, _ => (a, d, Err AttributeError)
      end
  end.

(** multipath.py:39-40 (FC6_MpPathData.__str__). *)
Definition path_text (dev rule : string) : string := (" --device=" ++ dev ++ " --rule=""" ++ rule ++ """")%string.
(** multipath.py:51-57 (FC6_MultiPathData.__str__). *)
Definition mp_data_str (m : data) : string :=
  if String.eqb (d_class m) "FC6_MpPathData" then
    match get "device" (d_attrs m), get "rule" (d_attrs m) with VStr dev, VStr rule => path_text dev rule | _, _ => "" end
  else
    match get "name" (d_attrs m), get "paths" (d_attrs m) with
    | VStr n, VPairs ps => concat_all (map (fun p => "multipath --name=" ++ n ++ path_text (fst p) (snd p) ++ nl)%string ps)
    | _, _ => ""
    end.
(** multipath.py:69-74 (__str__). *)
Definition mp_str (a : attrs) (d : list data) : string := concat_all (map mp_data_str d).

(** multipath.py:63-67 (__init__). *)
Definition mp_class : cclass := mkClass "FC6_MultiPath" (base_attrs (VInt 50)) true [] mp_parse mp_str.
