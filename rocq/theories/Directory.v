(* An endpoint whose description changes, and browsers that keep what they have found out.  Client programs composed of the
   functions of stream_message.h as in Browse.v; they have no counterpart in /repo.  Each browser has a connection from the
   endpoint and one to it; packets keep their order on a connection, and take any time. *)
From Coq Require Import ZArith List Bool.
From Verif Require Import Base Packet Sysex Endpoint EndpointSpec Browse.
Import ListNotations.
Local Open Scope Z_scope.
Local Open Scope res_scope.

(* ---- what a browser keeps --------------------------------------------------------------- *)

Inductive topic := OfInfo | OfIdentity | OfConfiguration | OfBlock (b : Z) | OfText (s : text_sender).
Definition topic_eqb (a b : topic) : bool :=
  match a, b with
  | OfInfo, OfInfo | OfIdentity, OfIdentity | OfConfiguration, OfConfiguration => true
  | OfBlock x, OfBlock y => x =? y
  | OfText x, OfText y => text_key_eqb x y
  | _, _ => false
  end.
Definition topic_of (f : finding) : option topic :=
  match f with
  | FReport (RInfo _ _ _ _ _ _ _) => Some OfInfo
  | FReport (RIdentity _) => Some OfIdentity
  | FReport (RConfiguration _ _) => Some OfConfiguration
  | FReport (RBlockInfo _ b _ _ _ _ _ _ _) => Some (OfBlock b)
  | FReport _ => None
  | FText s _ => Some (OfText s)
  end.

(* the latest finding for each topic *)
Definition directory : Type := list (topic * finding).
Definition learn (dir : directory) (f : finding) : directory :=
  match topic_of f with
  | Some k => (k, f) :: filter (fun x => negb (topic_eqb k (fst x))) dir
  | None => dir
  end.
Definition look_up (dir : directory) (k : topic) : option finding :=
  match find (fun x => topic_eqb k (fst x)) dir with Some x => Some (snd x) | None => None end.

Record browser := mkBrowser { bw_unfinished : unfinished; bw_directory : directory }.
Definition new_browser : browser := mkBrowser [] [].
Definition browser_receive (dbg : bool) (b : browser) (p : packet) : res browser :=
  r <- browse_packet dbg (bw_unfinished b) p ;;
  Ok (mkBrowser (fst r) (fold_left learn (snd r) (bw_directory b))).

(* ---- an endpoint that changes ----------------------------------------------------------- *)

Inductive change :=
| ChInfo (static : bool) (protocols extensions major minor : Z)
| ChIdentity (i : device_identity)
| ChName (t : list Z)
| ChProduct (t : list Z)
| ChConfiguration (protocol timestamps : Z)
| ChBlock (b : Z) (o : fb_options) (first groups : Z)
| ChBlockName (b : Z) (t : list Z).

Definition change_block (b : Z) (f : block_desc -> block_desc) (ks : list block_desc) : list block_desc :=
  map (fun k => if bd_index k =? b then f k else k) ks.
Definition changed (d : endpoint_desc) (c : change) : endpoint_desc :=
  let '(mkEndpointDesc st pr ex ma mi id na pd pc ts ks) := d in
  match c with
  | ChInfo st' pr' ex' ma' mi' => mkEndpointDesc st' pr' ex' ma' mi' id na pd pc ts ks
  | ChIdentity id' => mkEndpointDesc st pr ex ma mi id' na pd pc ts ks
  | ChName na' => mkEndpointDesc st pr ex ma mi id na' pd pc ts ks
  | ChProduct pd' => mkEndpointDesc st pr ex ma mi id na pd' pc ts ks
  | ChConfiguration pc' ts' => mkEndpointDesc st pr ex ma mi id na pd pc' ts' ks
  | ChBlock b o g n =>
      mkEndpointDesc st pr ex ma mi id na pd pc ts (change_block b (fun k => mkBlockDesc (bd_index k) o g n (bd_name k)) ks)
  | ChBlockName b t =>
      mkEndpointDesc st pr ex ma mi id na pd pc ts
        (change_block b (fun k => mkBlockDesc (bd_index k) (bd_options k) (bd_first_group k) (bd_groups k) t) ks)
  end.
Definition block_of (d : endpoint_desc) (b : Z) : option block_desc := find (fun k => bd_index k =? b) (ed_blocks d).
(* what it says unasked about a change; [d] is the new description *)
Definition announce (dbg : bool) (d : endpoint_desc) (c : change) : res (list packet) :=
  match c with
  | ChInfo _ _ _ _ _ =>
      single (make_endpoint_info_message (size (ed_blocks d)) (ed_static d) (ed_protocols d) (ed_extensions d) (ed_major d) (ed_minor d))
  | ChIdentity _ => Ok [make_device_identity_message (ed_identity d)]
  | ChName _ => send_endpoint_name dbg (ed_name d)
  | ChProduct _ => send_product_instance_id dbg (ed_product d)
  | ChConfiguration _ _ => single (make_stream_configuration_notification dbg (ed_protocol d) (ed_timestamps d))
  | ChBlock b _ _ _ =>
      match block_of d b with
      | Some k => single (make_function_block_info_message_options dbg (bd_index k) (bd_options k) (bd_first_group k) (bd_groups k))
      | None => Ok []
      end
  | ChBlockName b _ =>
      match block_of d b with
      | Some k => send_function_block_name dbg (bd_index k) (bd_name k)
      | None => Ok []
      end
  end.

(* ---- both, with connections ------------------------------------------------------------- *)

Record site := mkSite {
  si_endpoint : endpoint_desc;
  si_requests : nat -> list packet;  (* on their way from browser i *)
  si_links : nat -> list packet;     (* on their way to browser i *)
  si_browsers : nat -> browser }.
Definition new_site (d : endpoint_desc) : site := mkSite d (fun _ => []) (fun _ => []) (fun _ => new_browser).
Definition set_at {A} (i : nat) (x : A) (f : nat -> A) : nat -> A := fun j => if Nat.eqb j i then x else f j.

Inductive act :=
| AChange (c : change)              (* the description changes *)
| AAsk (i : nat) (q : packet)       (* browser i sends a packet to the endpoint *)
| AServe (i : nat)                  (* the next packet of browser i arrives and is answered *)
| AHear (i : nat)                   (* the next packet of the endpoint arrives at browser i *)
| AOther (i n : nat) (p : packet).  (* a packet of another type gets between those on their way to browser i *)

Definition site_step (dbg : bool) (s : site) (a : act) : res site :=
  match a with
  | AChange c =>
      let d := changed (si_endpoint s) c in
      ps <- announce dbg d c ;;
      Ok (mkSite d (si_requests s) (fun i => si_links s i ++ ps) (si_browsers s))
  | AAsk i q => Ok (mkSite (si_endpoint s) (set_at i (si_requests s i ++ [q]) (si_requests s)) (si_links s) (si_browsers s))
  | AServe i =>
      match si_requests s i with
      | [] => Ok s
      | q :: r =>
          ps <- answer dbg (si_endpoint s) q ;;
          Ok (mkSite (si_endpoint s) (set_at i r (si_requests s)) (fun j => si_links s j ++ ps) (si_browsers s))
      end
  | AHear i =>
      match si_links s i with
      | [] => Ok s
      | p :: r =>
          b <- browser_receive dbg (si_browsers s i) p ;;
          Ok (mkSite (si_endpoint s) (si_requests s) (set_at i r (si_links s)) (set_at i b (si_browsers s)))
      end
  | AOther i n p =>
      Ok (mkSite (si_endpoint s) (si_requests s)
            (set_at i (firstn n (si_links s i) ++ p :: skipn n (si_links s i)) (si_links s)) (si_browsers s))
  end.
Fixpoint site_run (dbg : bool) (s : site) (l : list act) : res site :=
  match l with
  | [] => Ok s
  | a :: r => s' <- site_step dbg s a ;; site_run dbg s' r
  end.
(* what browser i knows about a topic *)
Definition knows (s : site) (i : nat) (k : topic) : option finding := look_up (bw_directory (si_browsers s i)) k.
