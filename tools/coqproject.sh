#!/bin/sh
# list the theories in dependency-friendly order
cd "$(dirname "$0")/../rocq" && { echo "-Q theories Verif"; ls theories/*.v; } > _CoqProject
