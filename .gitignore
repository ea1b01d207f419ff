rocq/Makefile
rocq/Makefile.conf
rocq/.Makefile.d
rocq/.*.cache
rocq/.*.d
*.vo
*.vok
*.vos
*.glob
*.aux
.lia.cache
.nia.cache
