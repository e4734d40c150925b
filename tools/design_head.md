# Formal model of google/capirca in Rocq

This file is written by tools/gen_design.py from tools/design_head.md, tools/plans.json, the
comments at the head of the theories, properties.jsonl and MANIFEST.json.

## Approach

The Python code in /repo is transcribed, function by function, into total computable
Gallina definitions (`rocq/theories/Model*.v`). Exceptions are values of
`res A := Ok a | Raise e`. Python loops become structural recursion, folds, or
recursion on explicit fuel; running out of fuel is a distinct error which a theorem
excludes. Integers are `Z`, addresses are integers, text is `string` (ASCII bytes).

A separate specification (`rocq/theories/Spec*.v`) says what the code is about: sets of
(family, address) pairs, sets of ports, packets, what a policy term means (SpecPolicy.v),
and, for each target platform, a reader of its configuration language with its own
semantics (SpecCisco.v, SpecCiscoGroup.v, SpecIptables.v, SpecJuniper.v, SpecNft.v,
SpecPcap.v, ...). The readers are written from the documentation of the target languages and
do not use the code that writes the text; a theorem such as "the access list decides as the policy" therefore goes
from terms through the generated text and back through an independent reader.

Property theorems (`rocq/theories/Props*.v`, named `CNN_...`) mention the model's entry points
and the specification only. Properties found false of the code are refuted
(`..._refuted`, with the witness); the strongest true part found is proved
(`..._partial`), and the comment beside it says what is missing. Beside each theorem an
`Example` shows that a concrete case meets its hypotheses.

## Trusted base

- The kernel of Coq 8.16.1. `Print Assumptions` below every property theorem prints
  "Closed under the global context": no theorem uses an axiom, neither of the standard library
  nor of any other library. (A whole-library check such as `coqchk -o` lists
  seven constants of `Coq.ssr.ssrunder`; they are parameters of a module type in the standard
  library's ssreflect files, loaded through `Lia`/`Zify`, and no theorem depends on them.)
- The transcription of Python to Gallina in `Model*.v`. It was made by reading; the code was
  not run.
- The specification: what a packet is, what a term means, and how the target platforms read
  their configurations. Device behaviour itself is outside the model.
- Text is a sequence of bytes; non-ASCII characters are not modelled as such.

## Not modelled

Logging, command-line flags of the tools (except the merge of configuration files, C39),
the discovery of policy files on disk, process pools other than as an arbitrary order of
completion (C38), Python's garbage, recursion limits and performance. Generators without a
Model file are not modelled. Term attributes that ModelTerm.v does not carry are listed at its head.

## How the theorems were tested

`tools/mutate.py` applies one edit at a time to a scratch copy of the model, rebuilds and records
which theorems fail; `seeded/LOG.jsonl` has one line per edit, with the theorems that were
tightened when an edit that falsifies a claim went unnoticed.
