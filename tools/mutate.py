#!/usr/bin/env python3
"""Tests the theorems against wrong programs.

usage: mutate.py mutants.json [out.jsonl] [--only=i,j,...] [--keep] [--fast]

--only: just these mutants (counted from 0).  --keep: leave the scratch
directories /tmp/mutk_<name>_<i> in place and use them again in the next run, to
work on the refutations.  --fast: do not find out which proofs break, replace
them all by Admitted; only what is shown false is reported.  --upto=File: leave out
the files after this one.

mutants.json: list of {"definition", "file", "old", "new", "edit", "claim"}.
For every mutant the development is copied to a scratch directory, the edit is
applied to the model file, and everything that depends on it is recompiled.  A
proof that no longer goes through is replaced by Admitted so that the rest can
be checked; the proof of a property theorem counts as broken if Print
Assumptions then lists anything.

A broken proof does not mean that the statement is false of the mutant: proofs
share lemmas.  A mutant may therefore have "refutes": {theorem: tactics}, where
the tactics prove [statement -> False] in the mutated development (the
hypothesis is called H).  The refutation is accepted only if it is closed under
the global context, so that no admitted proof is used.  In the JSON line written
for each mutant, "theorems_failed" are the theorems with an accepted refutation
and "proof_broken_only" the others whose proof broke.  A mutant that repairs the
code makes a "..._refuted" theorem fail; that can not be shown by one run, and
is listed under "witness_lost"."""
import json, os, re, shutil, subprocess, sys, tempfile
from concurrent.futures import ThreadPoolExecutor
ROOT = os.path.dirname(os.path.dirname(os.path.abspath(__file__))) + "/rocq"
STMT = re.compile(r"^(Local |Global )?(Lemma|Theorem|Example|Corollary|Fact|Remark|Instance)\b", re.M)

# for the side conditions of the instance that is refuted
PRELUDE = """Ltac side := first
  [ exact I | reflexivity | discriminate | (intro; discriminate)
  | apply Forall_nil | (apply Forall_cons; solve [side])
  | (apply bytes_okb_spec; vm_compute; reflexivity)
  | (split; solve [side]) | (left; solve [side]) | (right; solve [side])
  | (progress cbn; solve [side]) | (progress vm_compute; solve [side]) ].
Ltac evs := let t := fresh in let b := fresh in let H := fresh in
  intros t b H; cbn [In List.app] in H;
  repeat (destruct H as [H|H]; [try discriminate H; injection H as <- <-; apply bytes_okb_spec; vm_compute; reflexivity|]);
  destruct H.
Ltac sok := match goal with |- Forall setter_ok ?l => let x := eval vm_compute in l in change l with x end;
  repeat (apply Forall_cons; [first [exact I | split; [reflexivity|split; [apply bytes_okb_spec; reflexivity|reflexivity]]]|]);
  apply Forall_nil.
Ltac hist K := match type of K with context [v_trace ?v] =>
  let t := eval vm_compute in (v_trace v) in let E := fresh in
  assert (E : v_trace v = t) by (vm_compute; reflexivity); rewrite E in K; clear E end.
Ltac inlist := first [left; reflexivity | right; inlist].
Ltac notin := let H := fresh in intro H; vm_compute in H; repeat (destruct H as [H|H]; [discriminate H|]); exact H.
Ltac kill := repeat match goal with
  | H : False |- _ => destruct H
  | H : _ /\\ _ |- _ => destruct H
  | H : _ \\/ _ |- _ => destruct H
  | H : exists _, _ |- _ => destruct H
  | H : In _ (_ :: _) |- _ => destruct H
  | H : In _ [] |- _ => destruct H
  end; try discriminate; try congruence; try (cbn in *; discriminate).
Ltac splits E h := destruct h as [|? h]; cbn [List.app] in E;
  [try discriminate E; try (injection E; clear E; intros; subst)
  |try discriminate E; let E1 := fresh in let E2 := fresh in
   injection E as E1 E2; clear E; rename E2 into E; subst; splits E h].
Ltac isteps := split; [exists 10, tt, []; split; [lia|]; split; [constructor|reflexivity]
  |split; [apply bytes_okb_spec; reflexivity|split; vm_compute; reflexivity]].
Ltac encp E := match type of E with encodes ?p ?b =>
  apply (fun X => parse_complete UnsignedChar b [0] p X eq_refl (or_introl eq_refl) ltac:(left; discriminate)) in E; vm_compute in E; injection E; clear E; intros; subst end.
Ltac readp R := destruct R as [_ R]; vm_compute in R; injection R; clear R; intros; subst.
Ltac reqs := repeat match goal with
  | R : requests _ _ _ (_ :: _) _ _ |- _ => inversion R; clear R; subst; try discriminate; try (match goal with X : forall d, _ <> _ |- _ => exfalso; exact (X _ eq_refl) end)
  | R : requests _ _ _ [] _ _ |- _ => inversion R; clear R; subst
  | R : reads _ _ _ |- _ => readp R
  end; try discriminate.
Ltac blk := repeat match goal with
  | B : block1 _ _ _ _ |- _ => vm_compute in B; destruct B as (? & ? & ?); subst
  | B : wants _ _ _ |- _ => vm_compute in B; destruct B as (? & ?); subst
  end.
Ltac cons_blocks := repeat (match goal with
  | B : consecutive_blocks _ _ _ _ |- _ => inversion B; clear B; subst; blk
  end); try discriminate.
Ltac types F := match goal with Ht : In ?t (v_tr ?v), Ha : t_active ?t = true, Hc : t_client ?t = _, Hy : t_type ?t = ?ty |- _ =>
  let F := fresh in assert (F : forallb (fun t => negb (t_active t && (t_client t =? 1) && is_type (t_type t) ty)) (v_tr v) = true) by (vm_compute; reflexivity);
  rewrite forallb_forall in F; specialize (F t Ht); rewrite Ha, Hc, Hy in F; discriminate F end.
Ltac bl2 := repeat match goal with X : block2 _ _ _ _ _ |- _ =>
  let Xe := fresh in let Xi := fresh in let Xb := fresh in let Xp := fresh in
  destruct X as (Xe & _ & ? & ? & Xi & Xb & Xp); encp Xe; cbn in Xi; destruct Xi as [Xi|[]]; injection Xi; clear Xi; intros; subst;
  apply block_value_iff in Xb; destruct Xb as [_ Xb]; vm_compute in Xb; injection Xb; clear Xb; intros; subst end.
Ltac ni := let X := fresh in intro X; cbn in X; repeat (destruct X as [X|X]; [discriminate X|]); exact X.
Ltac absurd_in K := vm_compute in K; first [discriminate K | apply K; reflexivity | (injection K; intros; discriminate)].
"""

def files(upto=None):
    r = [l.strip() for l in open(ROOT + "/_CoqProject") if l.strip().endswith(".v")]
    return r[:r.index("theories/%s.v" % upto) + 1] if upto else r

def deps(text):
    r = set()
    for m in re.finditer(r"From Verif Require (?:Import|Export) ([^.]*)\.", text):
        r |= set(m.group(1).split())
    return r

def admit(text, line):
    """replace the proof around 1-based line by Admitted; None if not in a proof"""
    pos = sum(len(l) + 1 for l in text.split("\n")[:line - 1])
    eol = text.find("\n", pos)
    starts = [m.start() for m in STMT.finditer(text) if m.start() <= eol]
    if not starts:
        return None, None
    s = starts[-1]
    name = re.match(r"(?:Local |Global )?\w+\s+(\w+)", text[s:]).group(1)
    p = re.compile(r"\bProof\b[^.]*\.").search(text, s)
    e = re.compile(r"\b(Qed|Defined)\.").search(text, s)
    if not p or not e or p.start() > e.start() or e.end() < pos or p.start() > eol:
        return None, name
    return text[:p.start()] + "Proof. Admitted." + text[e.end():], name

# lemmas about the fixtures, which refutations use: proved even with --fast
KEEP = {"word_ok", "one_word", "put_hi_ok", "never_chunkedb_ok", "bytes_okb_spec", "block_value_iff", "is_type_regular", "sevs_ok", "after_reachable", "after_step", "regular_ok", "bafter_step", "no_boundary", "bP_well_behaved", "bP_proper", "idle_b"}

def admit_all(text):
    for m in reversed(list(STMT.finditer(text))):
        s = m.start()
        name = re.match(r"(?:Local |Global )?\w+\s+(\w+)", text[s:]).group(1)
        if name in KEEP:
            continue
        p = re.compile(r"\bProof\b[^.]*\.").search(text, s)
        e = re.compile(r"\b(Qed|Defined)\.").search(text, s)
        if p and e and e.group(1) == "Qed" and p.start() < e.start():
            text = text[:p.start()] + "Proof. Admitted." + text[e.end():]
    return text

def refute(mut, w, failed_lemmas, failed):
    mods = " ".join(os.path.basename(f)[:-2] for f in files(mut.get("upto")))
    refuted, ref_err = [], {}
    for i, (thm, script) in enumerate(sorted(mut.get("refutes", {}).items())):
        open(w + "/theories/Ref%d.v" % i, "w").write(
            "From Coq Require Import Permutation.\nFrom Verif Require Import %s.\n"
            "%s"
            "Lemma refutation : ltac:(let t := type of %s in exact t) -> False.\n"
            "Proof. intro H.\n%s\nQed.\nPrint Assumptions refutation.\n" % (mods, PRELUDE, thm, script))
        r = subprocess.run("ulimit -v 6000000; exec timeout 600 coqc -Q theories Verif theories/Ref%d.v" % i,
                           shell=True, cwd=w, capture_output=True, text=True)
        if r.returncode == 0 and "Closed under the global context" in r.stdout:
            refuted.append(thm)
        else:
            ref_err[thm] = (r.stdout[-300:] + r.stderr[-700:]).strip()
    return dict(mut, failed_lemmas=failed_lemmas, failed=failed, refuted=refuted, ref_err=ref_err)

def run(mut):
    if mut.get("dir"):
        d = mut["dir"]
        if os.path.exists(d + "/result.json"):
            return refute(mut, d + "/r", *json.load(open(d + "/result.json")))
        shutil.rmtree(d, ignore_errors=True)
        os.mkdir(d)
    else:
        d = tempfile.mkdtemp(prefix="mut_", dir="/tmp")
    try:
        shutil.copytree(ROOT, d + "/r")
        w = d + "/r"
        path = w + "/theories/" + mut["file"]
        t = open(path).read()
        n = t.count(mut["old"])
        if n != 1 and not mut.get("all"):
            return dict(mut, error="old text occurs %d times" % n)
        t = t.replace(mut["old"], mut["new"])
        open(path, "w").write(t)
        changed, failed_lemmas, failed = set(), [], []
        for f in files(mut.get("upto")):
            base = os.path.basename(f)[:-2]
            text = open(w + "/" + f).read()
            if os.path.basename(f) != mut["file"] and not (deps(text) & changed):
                continue
            changed.add(base)
            if mut.get("fast"):
                text = admit_all(text)
                open(w + "/" + f, "w").write(text)
            for _ in range(400):
                try:
                    r = subprocess.run("ulimit -v 6000000; exec timeout %d coqc -Q theories Verif %s" % (mut.get("timeout", 600), f),
                                       shell=True, cwd=w, capture_output=True, text=True)
                except Exception as e:
                    return dict(mut, error=str(e))
                if r.returncode == 0:
                    break
                m = re.search(r'line (\d+), characters', r.stderr)
                if not m:
                    # time-out or memory: find the place with -time
                    return dict(mut, error="no line: " + f + " " + r.stderr[-300:])
                new, name = admit(text, int(m.group(1)))
                if new is None:
                    return dict(mut, error="%s line %s: %s" % (f, m.group(1), r.stderr[-400:]))
                failed_lemmas.append(name)
                text = new
                open(w + "/" + f, "w").write(text)
            if base.startswith("Properties_") and not mut.get("fast"):
                names = re.findall(r"^Print Assumptions (\w+)\.", text, re.M)
                out = re.findall(r"^(Closed under the global context|Axioms:)", r.stdout, re.M)
                if len(names) != len(out):
                    return dict(mut, error="%d names, %d outputs in %s" % (len(names), len(out), base))
                failed += [x for x, o in zip(names, out) if o == "Axioms:"]
        if mut.get("dir"):
            json.dump([failed_lemmas, failed], open(d + "/result.json", "w"))
        return refute(mut, w, failed_lemmas, failed)
    finally:
        if not mut.get("dir"):
            shutil.rmtree(d, ignore_errors=True)

if __name__ == "__main__":
    args = [a for a in sys.argv[1:] if not a.startswith("--")]
    muts = json.load(open(args[0]))
    out = open(args[1], "a") if len(args) > 1 else None
    if "--keep" in sys.argv:
        name = os.path.basename(args[0])[:-5]
        muts = [dict(m, dir="/tmp/mutk_%s_%d" % (name, i)) for i, m in enumerate(muts)]
    if "--fast" in sys.argv:
        muts = [dict(m, fast=True) for m in muts]
    for a in sys.argv:
        if a.startswith("--upto="):
            muts = [dict(m, upto=a[7:]) for m in muts]
        if a.startswith("--only="):
            muts = [muts[int(i)] for i in a[7:].split(",")]
    with ThreadPoolExecutor(3) as ex:
        for m in ex.map(run, muts):
            if "error" in m:
                print("ERROR", m["definition"], m["error"])
                continue
            rest = [x for x in m["failed"] if x not in m["refuted"]]
            lost = [x for x in rest if x.endswith("_refuted")]
            rest = [x for x in rest if x not in lost]
            print(m["definition"], "|", m["edit"], "| shown false:", ", ".join(m["refuted"]) or "NONE",
                  "| witness lost:", ", ".join(lost), "| proof broken only:", ", ".join(rest))
            for k, e in m["ref_err"].items():
                print("   REFUTATION FAILED", k, e)
            sys.stdout.flush()
            if out:
                out.write(json.dumps(dict(definition=m["definition"], edit=m["edit"], claim_broken=m["claim"],
                                          theorems_failed=m["refuted"], witness_lost=lost, proof_broken_only=rest,
                                          theorems_tightened=m.get("tightened", []), note=m.get("note", ""))) + "\n")
                out.flush()
