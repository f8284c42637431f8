*.aux
*.glob
*.vo
*.vok
*.vos
.*.aux
.lia.cache
.nia.cache
rocq/.Makefile.d
rocq/.lia.cache
rocq/Makefile
rocq/Makefile.conf
