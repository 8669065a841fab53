(** * Loading files and URLs (pykickstart/load.py)

    requests, the file system and the encoding of the locale are parameters; files hold bytes, texts are lists of code points. *)

From Verif Require Export PyStr Value.
From Coq Require Export NArith List.
Import ListNotations.
Local Open Scope string_scope.
Local Open Scope list_scope.

Definition bytes := list N.
Definition codes := list N.

(** bytes.decode("utf-8") of the standard library, strict: the code points, or [None] for UnicodeDecodeError.  The ranges of the second byte
    exclude the long forms, the surrogates and what is above 0x10FFFF. *)
Definition cont (b : N) : bool := ((128 <=? b) && (b <? 192))%N.
Definition within (lo hi b : N) : bool := ((lo <=? b) && (b <=? hi))%N.
Fixpoint decode (s : bytes) : option codes :=
  match s with
  | [] => Some []
  | a :: r =>
      if (a <? 128)%N then match decode r with Some t => Some (a :: t) | None => None end
      else match r with
      | [] => None
      | b :: r2 =>
          if within 194 223 a then
            if cont b then match decode r2 with Some t => Some ((a - 192) * 64 + (b - 128) :: t)%N | None => None end else None
          else match r2 with
          | [] => None
          | c :: r3 =>
              if within 224 239 a then
                if within (if (a =? 224)%N then 160 else 128) (if (a =? 237)%N then 159 else 191) b && cont c
                then match decode r3 with Some t => Some ((a - 224) * 4096 + (b - 128) * 64 + (c - 128) :: t)%N | None => None end else None
              else match r3 with
              | [] => None
              | d :: r4 =>
                  if within 240 244 a then
                    if within (if (a =? 240)%N then 144 else 128) (if (a =? 244)%N then 143 else 191) b && cont c && cont d
                    then match decode r4 with Some t => Some ((a - 240) * 262144 + (b - 128) * 4096 + (c - 128) * 64 + (d - 128) :: t)%N | None => None end else None
                  else None
              end
          end
      end
  end.

(** What open() finds: nothing that can be read, or a file. *)
Definition disk := string -> option bytes.
Definition written (p : string) (b : bytes) (fs : disk) : disk := fun q => if String.eqb q p then Some b else fs q.
(** requests.get: SSLError, another RequestException, or an answer with a status and a text (requests decodes it). *)
Inductive answer := NotSecure | NotReached | Answer (status : Z) (t : codes).

(** load.py:28: '://' in location. *)
Fixpoint is_url (location : string) : bool :=
  startswith location "://" || match location with "" => false | String _ r => is_url r end.

Section Load.
Variable get : string -> answer.
(** open(destination, 'w') is possible. *)
Variable can_write : string -> bool.
(** The encoding of text files: [None] is UnicodeEncodeError. *)
Variable encoded : codes -> option bytes.

(** load.py:76-89 (_load_url). *)
Definition load_url (location : string) : res codes :=
  match get location with
  | NotSecure => Err (KSError None "securely accessing")
  | NotReached => Err (KSError None "accessing")
  | Answer status t => if Z.eqb status 200 then Ok t else Err (KSError None "accessing")
  end.
(** load.py:91-105 (_load_file), as Python 3 runs it.  UnicodeDecodeError is a ValueError. *)
Definition load_file (fs : disk) (filename : string) : res codes :=
  match fs filename with
  | None => Err (KSError None "opening")
  | Some b => match decode b with Some t => Ok t | None => Err ValueError end
  end.
(** load.py:107-113 (_copy_file).  shutil.copyfile opens the source before the destination, and refuses to copy a file to itself; links and
    special files are not modelled, nor is a device that is full. *)
Definition copy_file (fs : disk) (filename destination : string) : disk * res unit :=
  if String.eqb filename destination then (fs, Err (KSError None "copying"))
  else match fs filename with
  | None => (fs, Err (KSError None "copying"))
  | Some b => if can_write destination then (written destination b fs, Ok tt) else (fs, Err (KSError None "copying"))
  end.
(** load.py:32-46 (load_to_str). *)
Definition load_to_str (fs : disk) (location : string) : res codes :=
  if is_url location then load_url location else load_file fs location.
(** load.py:48-74 (load_to_file).  Opening the destination empties it. *)
Definition load_to_file (fs : disk) (location destination : string) : disk * res string :=
  if is_url location then
    match load_url location with
    | Err e => (fs, Err e)
    | Ok t =>
        if can_write destination then
          match encoded t with
          | Some b => (written destination b fs, Ok destination)
          | None => (written destination [] fs, Err ValueError)
          end
        else (fs, Err (KSError None "writing"))
    end
  else match copy_file fs location destination with
       | (fs', Ok _) => (fs', Ok destination)
       | (fs', Err e) => (fs', Err e)
       end.
End Load.
