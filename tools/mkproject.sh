#!/bin/sh
# regenerate rocq/_CoqProject (flags unchanged, one line per file)
cd "$(dirname "$0")/../rocq" && { echo "-Q theories Verif"; ls theories/*.v; } > _CoqProject
