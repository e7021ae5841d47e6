(** Model of src/tavi/configuration.py:20-52 (Configuration.__init__) and 79-102, tavimain.py:19-37 (refusing to start) and help/help_model.py: the
    configuration file from one start of the program to the next. *)
From Coq Require Import List String Bool.
From Verif Require Import Base M_Labels.
Import ListNotations.
Open Scope string_scope.
Open Scope list_scope.

(** A file as ConfigParser reads it: not there, text that cannot be decoded (UnicodeDecodeError, a ValueError), text that is no
    configuration (configparser.Error, which is no ValueError), or a configuration. Simplification: what was written reads back as it was
    (true of ConfigParser for names and values without line breaks at their ends and "%"). *)
Inductive cfile := Absent | Undecodable | Malformed | Holds (c : config).
Record disk := Disk { d_template : cfile; d_user : cfile }.
(** How a start ends: [Configuration.valid], or an exception that reaches the caller. *)
Inductive ending := Valid (b : bool) | Raised.
Definition empty_config : config := Config [] [].

(** configuration.py:36-40 *)
Definition provided (d : disk) : cfile := match d_user d with Absent => d_template d | f => f end.
(** What becomes of reading the user's file and then, in [validate], the template: the configuration to write, or the ending. *)
Definition read_both (d : disk) : config + ending :=
  match provided d with
  | Holds c => match d_template d with
               | Holds t => inl (validate t c)
               | Malformed => inr Raised
               | _ => inr (Valid false)
               end
  | Malformed => inr Raised
  | _ => inr (Valid false)
  end.
(** configuration.py:33-52, 54-72. ConfigParser.read ignores a file that is not there (line 58 is reached with the template there). *)
Definition start (d : disk) : disk * ending :=
  match d_template d with
  | Absent => (d, Valid false)
  | _ => match read_both d with
         | inl c => (Disk (d_template d) (Holds c), Valid true)
         | inr e => (Disk (d_template d) (provided d), e)
         end
  end.
(** The files a start that is broken off can leave: those before; with the template copied (an empty copy, or the whole); with the user's file
    opened for writing (configuration.py:70), which empties it; those at the end. Simplification: a file shorter than a buffer is written in one
    piece. *)
Definition broken_off (d : disk) : list disk :=
  d :: (match d_template d with
        | Absent => []
        | _ => (match d_user d with Absent => [Disk (d_template d) (Holds empty_config); Disk (d_template d) (provided d)] | _ => [] end)
               ++ (match read_both d with inl _ => [Disk (d_template d) (Holds empty_config)] | inr _ => [] end) ++ [fst (start d)]
        end).
(** configuration.py:79-102 for the file there is; [inr tt] stands for the exceptions of configparser. A malformed file raises, and so does one
    that cannot be decoded (no try around line 86). *)
Definition setting_of (d : disk) (s f : string) : setting + unit :=
  match d_user d with
  | Absent => inl SNone
  | Holds c => match get_data c s f with Ok x => inl x | Err _ => inr tt end
  | _ => inr tt
  end.
(** tavimain.py:23-34: without a valid configuration the program ends; help_model.py:8-12: what the browser is asked for *)
Definition runs (e : ending) : bool := match e with Valid true => true | _ => false end.
Definition help_url (d : disk) : setting + unit := setting_of d "global.other" "help_url".

(** Several copies of the program starting at the same time, on a user's file that is there: each reads the file and completes what it read
    (configuration.py:45-69), opens the file, which empties it (line 70), and writes (line 71). *)
Inductive phase := Waiting | Loaded (c : config) | Writing (c : config) | Finished | Failed.
Definition config_eq_dec : forall a b : config, {a = b} + {a <> b}.
Proof. repeat decide equality. Defined.
(** A text written from the start of a file that holds another: the longer one sticks out. Simplification: the mixture is no configuration. *)
Definition written (f : cfile) (c : config) : cfile :=
  match f with
  | Holds c' => if config_eq_dec c' empty_config then Holds c else if config_eq_dec c' c then Holds c else Malformed
  | _ => Malformed
  end.
(** One step of one copy *)
Definition advance (t : config) (f : cfile) (ph : phase) : cfile * phase :=
  match ph with
  | Waiting => match f with Holds c => (f, Loaded (validate t c)) | _ => (f, Failed) end
  | Loaded c => (Holds empty_config, Writing c)
  | Writing c => (written f c, Finished)
  | ph => (f, ph)
  end.
Fixpoint put (i : nat) (ph : phase) (l : list phase) : list phase :=
  match l, i with [], _ => [] | _ :: l, O => ph :: l | x :: l, S i => x :: put i ph l end.
(** The copy whose turn it is does its next step. *)
Definition turn (t : config) (st : cfile * list phase) (i : nat) : cfile * list phase :=
  match nth_error (snd st) i with
  | Some ph => let '(f, ph') := advance t (fst st) ph in (f, put i ph' (snd st))
  | None => st
  end.
Definition schedule (t : config) (st : cfile * list phase) (turns : list nat) : cfile * list phase := fold_left (turn t) turns st.
