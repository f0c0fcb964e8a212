#!/usr/bin/env python3
"""Writes the project's test vectors (/repo/rmls/test-vectors) as Coq examples.

Without argument: rocq/theories/VectorsMath.v, VectorsKeys.v and VectorsMessages.v, which are committed; they hold the
vectors that need no elliptic curve and little hashing. With a directory as argument: all of them, into that directory
(tools/run_vectors.sh compiles these; about 15 minutes, with the virtual machine)."""
import json, os, re, sys, textwrap

SRC = "/repo/rmls/test-vectors/"
ALL = len(sys.argv) > 1
OUT = sys.argv[1] + "/" if ALL else os.path.join(os.path.dirname(os.path.abspath(__file__)), "../rocq/theories/")
LIGHT = ("tree_math_", "messages_", "ref_hash_", "expand_", "derive_secret_", "derive_tree_secret_", "psk_secret_0", "psk_secret_1", "transcript_0")
HEAD = """(** Test vectors of the project, run in the model: %s. Written by tools/mkvectors.py; see VectorChecks.v. *)
From Verif Require Import VectorChecks.
From Coq Require Import String.
Local Open Scope string_scope.
Local Open Scope N_scope.
"""

def load(name):
    return json.load(open(SRC + name + ".json"))

def h(s):
    return '(hex "%s")' % s

def s(t):
    return '(str "%s")' % t

def lst(xs):
    return "[" + "; ".join(xs) + "]"

def opt(x):
    return "None" if x is None else "(Some %s)" % x

def fill(text):
    return "\n".join(textwrap.wrap(text, 148, initial_indent="  ", subsequent_indent="    ", break_long_words=False, break_on_hyphens=False))

def example(name, cite, term, want="true"):
    return "(** %s *)\nExample %s :\n%s = %s.\nProof. vm_cast_no_check (eq_refl (%s)). Qed.\n" % (cite, name, fill(term), want, want)

def write(fname, title, items):
    if not ALL:
        items = [i for i in items if re.search("Example (%s)" % "|".join(LIGHT), i)]
        if not items:
            return
    text = HEAD % title + "".join("\n" + i for i in items)
    if not os.path.exists(OUT + fname) or open(OUT + fname).read() != text:
        open(OUT + fname, "w").write(text)

def math():
    out = []
    for i, v in enumerate(load("tree-math")):
        if v["n_leaves"] > 64:
            continue
        f = lambda k: lst([opt(x) for x in v[k]])
        out.append(example("tree_math_%d" % i, "tree-math.json, entry %d." % i,
            "tree_math_check %d %d %d %s %s %s %s" % (v["n_leaves"], v["n_nodes"], v["root"], f("left"), f("right"), f("parent"), f("sibling"))))
    write("VectorsMath.v", "tree-math.json, up to 64 leaves", out)

SHA = (1, 2, 3)
FULL = (1, 3)
def suite(v):
    return "Suite%d" % v["cipher_suite"]

def keys():
    out = []
    for i, v in enumerate(load("crypto-basics")):
        if v["cipher_suite"] not in SHA:
            continue
        cs, c = suite(v), "crypto-basics.json, entry %d, " % i
        r = v["ref_hash"]
        out.append(example("ref_hash_%d" % i, c + "ref_hash.", "ref_hash_check %s %s %s %s" % (cs, s(r["label"]), h(r["value"]), h(r["out"]))))
        r = v["expand_with_label"]
        out.append(example("expand_%d" % i, c + "expand_with_label.", "expand_check %s %s %s %s %d %s" % (cs, h(r["secret"]), s(r["label"]), h(r["context"]), r["length"], h(r["out"]))))
        r = v["derive_secret"]
        out.append(example("derive_secret_%d" % i, c + "derive_secret.", "derive_secret_check %s %s %s %s" % (cs, h(r["secret"]), s(r["label"]), h(r["out"]))))
        r = v["derive_tree_secret"]
        out.append(example("derive_tree_secret_%d" % i, c + "derive_tree_secret.", "derive_tree_secret_check %s %s %s %d %d %s" % (cs, h(r["secret"]), s(r["label"]), r["generation"], r["length"], h(r["out"]))))
        if v["cipher_suite"] in FULL:
            r = v["sign_with_label"]
            out.append(example("sign_%d" % i, c + "sign_with_label.", "sign_check %s %s %s %s %s %s" % (cs, h(r["priv"]), h(r["pub"]), h(r["content"]), s(r["label"]), h(r["signature"]))))
            r = v["encrypt_with_label"]
            out.append(example("encrypt_%d" % i, c + "encrypt_with_label; the sender's random bytes are chosen here.",
                "encrypt_check %s %s %s %s %s %s %s %s %s" % (cs, h("00" * 31 + "07"), h(r["priv"]), h(r["pub"]), s(r["label"]), h(r["context"]), h(r["plaintext"]), h(r["kem_output"]), h(r["ciphertext"]))))
    for i, v in enumerate(load("psk_secret")):
        if v["cipher_suite"] in SHA and len(v["psks"]) < 5:
            ps = lst(["(%s, %s, %s)" % (h(p["psk_id"]), h(p["psk"]), h(p["psk_nonce"])) for p in v["psks"]])
            out.append(example("psk_secret_%d" % i, "psk_secret.json, entry %d." % i, "psk_secret_check %s %s %s" % (suite(v), ps, h(v["psk_secret"]))))
    for i, v in enumerate(load("key-schedule")):
        if v["cipher_suite"] in SHA:
            names = "tree_hash commit_secret psk_secret confirmed_transcript_hash group_context joiner_secret welcome_secret init_secret sender_data_secret encryption_secret exporter_secret external_secret confirmation_key membership_key resumption_psk epoch_authenticator".split()
            es = lst([lst([h(e[n]) for n in names]) for e in v["epochs"]])
            out.append(example("key_schedule_%d" % i, "key-schedule.json, entry %d." % i, "epochs_check %s %s 0 %s %s" % (suite(v), h(v["group_id"]), h(v["initial_init_secret"]), es)))
    for i, v in enumerate(load("transcript-hashes")):
        if v["cipher_suite"] in SHA:
            out.append(example("transcript_%d" % i, "transcript-hashes.json, entry %d." % i, "transcript_check %s %s %s %s %s %s" % (suite(v), h(v["confirmation_key"]), h(v["authenticated_content"]), h(v["interim_transcript_hash_before"]), h(v["confirmed_transcript_hash_after"]), h(v["interim_transcript_hash_after"]))))
    for i, v in enumerate(load("secret-tree")):
        if v["cipher_suite"] in SHA and len(v["leaves"]) <= 8:
            sd = v["sender_data"]
            ls = lst(["(%s, %s)" % tuple(lst(["(%d, %s, %s)" % (g["generation"], h(g[k + "_key"]), h(g[k + "_nonce"])) for g in l]) for k in ("handshake", "application")) for l in v["leaves"]])
            out.append(example("secret_tree_%d" % i, "secret-tree.json, entry %d." % i, "secret_tree_check %s %s %s %s %s %s %s" % (suite(v), h(sd["sender_data_secret"]), h(sd["ciphertext"]), h(sd["key"]), h(sd["nonce"]), h(v["encryption_secret"]), ls)))
    write("VectorsKeys.v", "crypto-basics.json, psk_secret.json, key-schedule.json, transcript-hashes.json and secret-tree.json", out)

def messages():
    out = []
    names = "mls_welcome mls_group_info mls_key_package ratchet_tree group_secrets add_proposal update_proposal remove_proposal pre_shared_key_proposal commit public_message_application public_message_proposal public_message_commit private_message".split()
    vs = load("messages")
    for i in (0, 1, 50, 100, 150, 200, 250, 299):
        out.append(example("messages_%d" % i, "messages.json, entry %d." % i, "messages_check " + " ".join(h(vs[i][n]) for n in names)))
    for i, v in enumerate(load("message-protection")):
        if v["cipher_suite"] in FULL:
            ctx = "(MkGroupContext MLS10 %s %s %d %s %s [])" % (suite(v), h(v["group_id"]), v["epoch"], h(v["tree_hash"]), h(v["confirmed_transcript_hash"]))
            for k in ("proposal", "commit", "application"):
                c = "message-protection.json, entry %d, %s" % (i, k)
                if k != "application":
                    out.append(example("%s_pub_%d" % (k, i), c + "_pub.", "protection_pub_check %s %s %s %s %s %s %s" % (suite(v), ctx, h(v["signature_priv"]), h(v["signature_pub"]), h(v["membership_key"]), h(v[k]), h(v[k + "_pub"]))))
                out.append(example("%s_priv_%d" % (k, i), c + "_priv; the sender's random bytes are chosen here.", "protection_priv_check %s %s %s %s %s %s %s %s %s" % (suite(v), ctx, h(v["signature_priv"]), h(v["signature_pub"]), h(v["encryption_secret"]), h(v["sender_data_secret"]), h("01020304"), h(v[k]), h(v[k + "_priv"]))))
    write("VectorsMessages.v", "messages.json and message-protection.json", out)

def trees():
    out = []
    for i, v in enumerate(load("tree-validation")):
        if v["cipher_suite"] in FULL and len(v["tree"]) < 3000:
            out.append(example("tree_validation_%d" % i, "tree-validation.json, entry %d." % i, "tree_validation_check %s %s %s %s %s" % (suite(v), h(v["tree"]), h(v["group_id"]), lst([lst(map(str, r)) for r in v["resolutions"]]), lst([h(x) for x in v["tree_hashes"]]))))
    write("VectorsTree.v", "tree-validation.json", out)
    out = []
    for i, v in enumerate(load("treekem")):
        if v["cipher_suite"] == 1:
            out.append(example("treekem_%d" % i, "treekem.json, entry %d." % i, "tree_kem_check %s %s %s" % (suite(v), h(v["ratchet_tree"]), lst(["(%d, %s, %s)" % (p["sender"], h(p["update_path"]), h(p["tree_hash_after"])) for p in v["update_paths"]]))))
    for i, v in enumerate(load("tree-operations")):
        out.append(example("tree_operations_%d" % i, "tree-operations.json, entry %d." % i, "tree_operations_check %s %s %s %d %s %s %s" % (suite(v), h(v["tree_before"]), h(v["proposal"]), v["proposal_sender"], h(v["tree_after"]), h(v["tree_hash_after"]), h(v["tree_hash_before"]))))
    write("VectorsTreeKem.v", "treekem.json and tree-operations.json", out)

def joins():
    out = []
    def args(v):
        return "%s %s %s %s %s %s" % (suite(v), lst(["(%s, %s)" % (h(p["psk_id"]), h(p["psk"])) for p in v["external_psks"]]), h(v["key_package"]), h(v["init_priv"]), h(v["welcome"]), opt(None if v["ratchet_tree"] is None else h(v["ratchet_tree"])))
    for i, v in enumerate(load("welcome")):
        if v["cipher_suite"] in FULL:
            out.append(example("welcome_%d" % i, "welcome.json, entry %d." % i, "welcome_check %s %s %s %s" % (h(v["init_priv"]), h(v["signer_pub"]), h(v["key_package"]), h(v["welcome"]))))
    vs = load("passive-client-welcome")
    for i, v in enumerate(vs):
        if v["cipher_suite"] in FULL and i in (0, 3, 18):
            out.append(example("join_%d" % i, "passive-client-welcome.json, entry %d." % i, "join_check %s %s" % (args(v), h(v["initial_epoch_authenticator"]))))
    for i, v in enumerate(load("passive-client-handling-commit")):
        if v["cipher_suite"] in FULL and i in (0, 30):
            out.append(example("commit_%d" % i, "passive-client-handling-commit.json, entry %d: join and follow the first commit." % i, "commit_check %s %s" % (args(v), h(v["epochs"][0]["commit"]))))
    v = load("passive-client-random")[0]
    out.append(example("random_0", "passive-client-random.json, entry 0: the first commit is refused, as the comment at utilities/serde/serde_test.rs:365-366 says.", "commit_result %s %s" % (args(v), h(v["epochs"][0]["commit"])), "@Err ratchet_tree ParentHashMismatchForUpdatePathLeafNode"))
    write("VectorsJoin.v", "welcome.json, passive-client-welcome.json and passive-client-handling-commit.json", out)

if __name__ == "__main__":
    math(); keys(); messages(); trees(); joins()
