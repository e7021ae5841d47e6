#!/bin/sh
# Lists every Coq file under theories/ in _CoqProject (the flag line is fixed).
cd "$(dirname "$0")/../rocq" && { echo "-Q theories Verif"; ls theories/*.v | LC_ALL=C sort; } > _CoqProject
