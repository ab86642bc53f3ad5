#!/bin/sh
# regenerate rocq/_CoqProject from tools/order.txt
cd "$(dirname "$0")/../rocq" && { echo "-Q theories Verif"; sed 's|^|theories/|;s|$|.v|' ../tools/order.txt; } > _CoqProject
